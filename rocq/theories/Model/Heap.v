(** tablite/base.py: columns and tables as objects which share things.

    Table.v and Column.v have tables and columns as values.  Here a table maps names to Column
    objects, a Column has a list of pages, and a page has values (written to disk once) and a
    reference to its dict of type counts.  The dict is shared:
    [page.get()] (142-149) hands out [self.dtype] itself as metadata of the array, arrays derived
    from it keep it (datatypes.py 813-816), and [Page(path, array)] (191-193) takes it over.

    Functions of Column.v are used as they are, for columns in which the type counts of a page are
    replaced by its reference ([tag]); pages which they make get a new dict ([alloc]).  Only
    [_setitem_integer_key] (copies the dict, 452) and [replace] (changes it in place, 909) look at
    the dict itself. *)
From stdpp Require Import functions.
From Verif.Model Require Export Table.
Local Open Scope Z_scope.

Section Heap.
  Context {N A T : Type} `{EqDecision N, EqDecision T} (ty : A → T).
  (** Config.PAGE_SIZE, conversions of numpy and [np.isin] as in Column.v *)
  Context (ps : Z) (cast : list (page A T) → A → res A) (np_array : list A → list A) (eqb : A → A → bool).

  Definition dict := list (T * Z).
  Record hpage := MkHpage { hdata : list A; hdict : nat }.
  (** dicts and Column objects by their number, tables by a variable's number *)
  Record heap := MkHeap { dicts : list dict; hcols : list (list hpage); tabs : nat → list (N * nat) }.

  Definition deref (ds : list dict) (p : hpage) : page A T := MkPage (hdata p) (default [] (ds !! hdict p)).
  Definition col_at (h : heap) (a : nat) : list hpage := default [] (hcols h !! a).
  (** a column, a table as values *)
  Definition col_view (h : heap) (a : nat) : column A T := map (deref (dicts h)) (col_at h a).
  Definition tab_view (h : heap) (i : nat) : table N A T := map (λ c, (c.1, col_view h c.2)) (tabs h i).

  Definition tag (p : hpage) : page A (nat + T) := MkPage (hdata p) [(inl (hdict p), 0)].
  Definition tagty (x : A) : nat + T := inr (ty x).
  Definition untag (d : list ((nat + T) * Z)) : dict :=
    omap (λ kv, match kv.1 with inl _ => None | inr t => Some (t, kv.2) end) d.
  Definition retag (d : dict) : list ((nat + T) * Z) := map (λ kv, (inr kv.1, kv.2)) d.
  Definition resolve_types (ds : list dict) (d : list ((nat + T) * Z)) : dict :=
    match d with (inl a, _) :: _ => default [] (ds !! a) | d => untag d end.
  Definition resolve (ds : list dict) (p : page A (nat + T)) : page A T :=
    MkPage (pdata p) (resolve_types ds (ptypes p)).
  Fixpoint alloc (ds : list dict) (c : column A (nat + T)) : list dict * list hpage :=
    match c with
    | [] => (ds, [])
    | p :: c =>
        match ptypes p with
        | (inl a, _) :: _ => let r := alloc ds c in (r.1, MkHpage (pdata p) a :: r.2)
        | d => let r := alloc (ds ++ [untag d]) c in (r.1, MkHpage (pdata p) (length ds) :: r.2)
        end
    end.

  (** ** Operations on a column *)
  Inductive sop :=
  | SetSlice (key : pyslice) (vs : list A) | DelInt (key : Z) | DelSlice (key : pyslice)
  | RemoveAll (vs : list A) | Extend (vs : list A) | Imul (n : Z) | Clear.
  Inductive cop := Simple (o : sop) | SetItem (key : Z) (v : A) | Replace (mapping : list (A * A)).

  (** [c[key] = vs], [del c[key]], [c.remove_all(vs)], [c.extend(vs)] (or [+=]), [c *= n], [c.clear()] *)
  Definition sop_run {U} `{EqDecision U} (tyU : A → U) (castU : list (page A U) → A → res A) (o : sop) (c : column A U)
    : res (column A U) :=
    match o with
    | SetSlice key vs => col_setslice tyU castU ps c key vs
    | DelInt key => col_delitem c key
    | DelSlice key => col_delslice tyU ps c key
    | RemoveAll vs => Ok (col_remove_all eqb c vs)
    | Extend vs => Ok (col_extend tyU ps c vs)
    | Imul n => col_imul c n
    | Clear => Ok (col_clear c)
    end.

  (** base.py 430-464, compare [col_setitem] *)
  Definition h_setitem (ds : list dict) (c : list hpage) (key : Z) (value : A) : list dict * res (list hpage) :=
    let c := map tag c in
    let length := col_len c in
    let key := if key <? 0 then length + key else key in
    if negb ((0 <=? key) && (key <? length)) then (ds, Err IndexError) else
    match find_page key 0 [] c with
    | None => let r := alloc ds c in (r.1, Ok r.2)
    | Some (before, start, p, after) =>
        match pdata p !! Z.to_nat (key - start) with
        | None => (ds, Err IndexError)
        | Some old =>
            let py_dtype := swap_type (ptypes (resolve ds p)) (ty old) (ty value) in
            let data := <[Z.to_nat (key - start) := value]> (pdata p) in
            let r := alloc ds (before ++ [MkPage data (retag py_dtype)] ++ after) in (r.1, Ok r.2)
        end
    end.

  (** base.py 910-922, compare [replace_loop]; the dict as it is also after an exception *)
  Fixpoint h_replace_loop (conv : A → res A) (mapping : list (A * A)) (warray : list A) (py_dtype : dict)
    : res (list A) * dict :=
    match warray with
    | [] => (Ok [], py_dtype)
    | v :: warray =>
        match map_get eqb mapping v with
        | None => (Err KeyError, py_dtype)
        | Some new =>
            match conv new with
            | Err e => (Err e, py_dtype)
            | Ok stored =>
                let r := h_replace_loop conv mapping warray (swap_type py_dtype (ty v) (ty new)) in
                (res_map (cons stored) r.1, r.2)
            end
        end
    end.
  (** base.py 903-925; the pages before and after the exception stay as they are then *)
  Fixpoint h_replace (mapping : list (A * A)) (ds : list dict) (c : list hpage) : list dict * list hpage * res () :=
    match c with
    | [] => (ds, [], Ok ())
    | p :: c =>
        let to_replace := np_array (map fst mapping) in
        let bitmask := map (λ x, existsb (eqb x) to_replace) (hdata p) in
        if existsb id bitmask then
          let warray := map fst (filter (λ q : A * bool, q.2 = true) (zip (hdata p) bitmask)) in
          let r := h_replace_loop (cast [deref ds p]) mapping warray (default [] (ds !! hdict p)) in
          let ds := <[hdict p := r.2]> ds in
          match r.1 with
          | Err e => (ds, p :: c, Err e)
          | Ok warray =>
              let '(ds, c, e) := h_replace mapping ds c in
              (ds, MkHpage (put_masked (hdata p) bitmask warray) (hdict p) :: c, e)
          end
        else let '(ds, c, e) := h_replace mapping ds c in (ds, p :: c, e)
    end.

  Definition set_col (h : heap) (a : nat) (ds : list dict) (c : list hpage) : heap :=
    MkHeap ds (<[a := c]> (hcols h)) (tabs h).
  Definition col_op (h : heap) (a : nat) (o : cop) : heap * res () :=
    match o with
    | Simple o =>
        match sop_run tagty (λ l, cast (map (resolve (dicts h)) l)) o (map tag (col_at h a)) with
        | Err e => (h, Err e)
        | Ok c => let r := alloc (dicts h) c in (set_col h a r.1 r.2, Ok ())
        end
    | SetItem key v =>
        match h_setitem (dicts h) (col_at h a) key v with
        | (ds, Ok c) => (set_col h a ds c, Ok ())
        | (_, Err e) => (h, Err e)
        end
    | Replace mapping =>
        let '(ds, c, e) := h_replace mapping (dicts h) (col_at h a) in (set_col h a ds c, e)
    end.
  (** [c += d], [c.extend(d)] with a Column, base.py 258-260, 848-849 *)
  Definition col_add (h : heap) (a b : nat) : heap := set_col h a (dicts h) (col_at h a ++ col_at h b).
  (** a loop over columns which ends at the first exception *)
  Fixpoint cols_op (h : heap) (l : list nat) (o : cop) : heap * res () :=
    match l with
    | [] => (h, Ok ())
    | a :: l => match col_op h a o with (h, Ok _) => cols_op h l o | (h, Err e) => (h, Err e) end
    end.

  (** ** Operations on tables *)
  Inductive top :=
  | OCol (i : nat) (n : N) (o : cop)               (* an operation on ti[n] *)
  | OColAdd (i : nat) (n : N) (j : nat) (m : N)    (* ti[n] += tj[m] *)
  | OSet (i : nat) (n : N) (vs : list A)           (* ti[n] = vs *)
  | OSetCol (i : nat) (n : N) (j : nat) (m : N)    (* ti[n] = tj[m] *)
  | ODel (i : nat) (n : N)                         (* del ti[n] *)
  | ODelRows (i : nat) (o : sop)                   (* del ti[int or slice] *)
  | OClear (i : nat)                               (* ti.clear() *)
  | OImul (i : nat) (k : Z)                        (* ti *= k *)
  | OIadd (i j : nat)                              (* ti += tj *)
  | OCopy (i k : nat)                              (* tk = ti.copy() *)
  | OSelect (i : nat) (ns : list N) (k : nat)      (* tk = ti[n1, n2, ...], several names *)
  | OSlice (i : nat) (ns : list N) (s : pyslice) (k : nat).  (* tk = ti[n1, ..., slice] *)

  Definition set_tab (h : heap) (i : nat) (t : list (N * nat)) : heap := MkHeap (dicts h) (hcols h) (<[i := t]> (tabs h)).
  (** a new Column object with these pages *)
  Definition new_col (h : heap) (ds : list dict) (c : list hpage) : heap * nat :=
    (MkHeap ds (hcols h ++ [c]) (tabs h), length (hcols h)).
  Definition with_col (h : heap) (i : nat) (n : N) (f : nat → heap * res ()) : heap * res () :=
    match dget (tabs h i) n with None => (h, Err KeyError) | Some a => f a end.

  (** base.py 1455-1462 *)
  Fixpoint copy_cols (h : heap) (src dst : list (N * nat)) : heap * list (N * nat) :=
    match src with
    | [] => (h, dst)
    | (n, a) :: src => let r := new_col h (dicts h) (col_at h a) in copy_cols r.1 src (dset dst n r.2)
    end.
  (** base.py 1516-1518 *)
  Fixpoint add_cols (h : heap) (l : list (N * nat)) (j : nat) : heap * res () :=
    match l with
    | [] => (h, Ok ())
    | (n, a) :: l => match dget (tabs h j) n with
                     | None => (h, Err AttributeError)
                     | Some b => add_cols (col_add h a b) l j
                     end
    end.
  (** base.py 1263-1266: __init__ and __setitem__ keep the Column objects *)
  Fixpoint select_cols (t : list (N * nat)) (ns : list N) (acc : list (N * nat)) : res (list (N * nat)) :=
    match ns with
    | [] => Ok acc
    | n :: ns => match dget t n with None => Err KeyError | Some a => select_cols t ns (dset acc n a) end
    end.
  (** base.py 1268-1287 *)
  Fixpoint slice_cols (h : heap) (t : list (N * nat)) (ns : list N) (s : pyslice) (acc : list (N * nat))
    : heap * res (list (N * nat)) :=
    match ns with
    | [] => (h, Ok acc)
    | n :: ns =>
        match dget t n with
        | None => (h, Err KeyError)
        | Some a =>
            match sub_column tagty ps (map tag (col_at h a)) s with
            | Err e => (h, Err e)
            | Ok c => let r := alloc (dicts h) c in let q := new_col h r.1 r.2 in
                      slice_cols q.1 t ns s (dset acc n q.2)
            end
        end
    end.

  Definition step (h : heap) (o : top) : heap * res () :=
    match o with
    | OCol i n o => with_col h i n (λ a, col_op h a o)
    | OColAdd i n j m => with_col h i n (λ a, with_col h j m (λ b, (col_add h a b, Ok ())))
    | OSet i n vs =>
        let r := alloc (dicts h) (col_new tagty ps vs) in
        let q := new_col h r.1 r.2 in (set_tab q.1 i (dset (tabs h i) n q.2), Ok ())
    | OSetCol i n j m => with_col h j m (λ b, (set_tab h i (dset (tabs h i) n b), Ok ()))
    | ODel i n => with_col h i n (λ _, (set_tab h i (ddel (tabs h i) n), Ok ()))
    | ODelRows i o => cols_op h (tabs h i).*2 (Simple o)
    | OClear i => (set_tab h i [], Ok ())
    | OImul i k => if 0 <? k then cols_op h (tabs h i).*2 (Simple (Imul k)) else (h, Err TypeError)
    | OIadd i j =>
        if negb (forallb (λ n, bool_decide (n ∈ (tabs h j).*1)) (tabs h i).*1) then (h, Err ValueError) else
        if negb (forallb (λ n, bool_decide (n ∈ (tabs h i).*1)) (tabs h j).*1) then (h, Err ValueError) else
        add_cols h (tabs h i) j
    | OCopy i k => let r := copy_cols h (tabs h i) [] in (set_tab r.1 k r.2, Ok ())
    | OSelect i ns k =>
        match select_cols (tabs h i) ns [] with Err e => (h, Err e) | Ok t => (set_tab h k t, Ok ()) end
    | OSlice i ns s k =>
        match slice_cols h (tabs h i) ns s [] with
        | (h, Err e) => (h, Err e)
        | (h, Ok t) => (set_tab h k t, Ok ())
        end
    end.
  (** a program; exceptions are caught *)
  Definition run (h : heap) (os : list top) : heap := fold_left (λ h o, (step h o).1) os h.
  Definition empty_heap : heap := MkHeap [] [] (λ _, []).
End Heap.
Arguments dict : clear implicits.
Arguments hpage : clear implicits.
Arguments heap : clear implicits.
Arguments sop : clear implicits.
Arguments cop : clear implicits.
Arguments top : clear implicits.
