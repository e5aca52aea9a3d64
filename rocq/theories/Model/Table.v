(** tablite/base.py: class [BaseTable] (lines 1075-2000), over columns as values.

    A table is the insertion ordered dict [self.columns].  Two names that hold
    the same Column object (aliasing) are not modelled here, see Heap.v.
    Names are strings or any other hashable type [N].  [none] is Python's
    [None]. *)
From Verif.Spec Require Export Rows.
From Verif.Model Require Export Column ColumnStats.
Local Open Scope Z_scope.

Section Table.
  Context {N A T : Type} `{EqDecision N, EqDecision T} (ty : A → T) (none : A) (ps : Z).

  Definition table := list (N * column A T).

  (** The contents of a table: what [t.to_dict()] shows (base.py 1859-1890). *)
  Definition contents (t : table) : view (N := N) (A := A) := map (λ c, (c.1, col_iter c.2)) t.

  (** base.py 1289-1292 [__len__] *)
  Definition tbl_len (t : table) : Z :=
    fold_left (λ m c, Z.max m (col_len c.2)) t 0.

  (** [next(i)] for every generator; StopIteration inside the generator
      function becomes RuntimeError *)
  Fixpoint nexts (gens : list (list A)) : res (list A * list (list A)) :=
    match gens with
    | [] => Ok ([], [])
    | [] :: _ => Err OtherError
    | (x :: g) :: gens => res_map (λ r, (x :: r.1, g :: r.2)) (nexts gens)
    end.

  Fixpoint rows_loop (n : nat) (gens : list (list A)) : res (list (list A)) :=
    match n with
    | O => Ok []
    | S n => res_bind (nexts gens) (λ r, res_map (cons r.1) (rows_loop n r.2))
    end.

  (** base.py 1294-1318 [rows]; [repeat(None, times=k)] is empty for k < 0 *)
  Definition tbl_rows (t : table) : res (list (list A)) :=
    let n_max := tbl_len t in
    let generators := map (λ c, col_iter c.2 ++ replicate (Z.to_nat (n_max - col_len c.2)) none) t in
    rows_loop (Z.to_nat n_max) generators.

  (** base.py 1177-1203 [__setitem__] with a list, tuple or array / with a Column *)
  Definition tbl_set (t : table) (n : N) (vs : list A) : table := dset t n (col_new ty ps vs).
  Definition tbl_set_col (t : table) (n : N) (c : column A T) : table := dset t n c.

  (** base.py 1161-1175 [__delitem__] with a name *)
  Definition tbl_del (t : table) (n : N) : res table :=
    match dget t n with Some _ => Ok (ddel t n) | None => Err KeyError end.

  (** [zip] of a list of lists: as long as the shortest; [fuel] is the length of
      the first. *)
  Fixpoint zip_all_loop (fuel : nat) (ls : list (list A)) : list (list A) :=
    match fuel with
    | O => []
    | S fuel => match nexts ls with
                | Ok r => r.1 :: zip_all_loop fuel r.2
                | Err _ => []
                end
    end.
  Definition zip_all (ls : list (list A)) : list (list A) :=
    match ls with [] => [] | l :: _ => zip_all_loop (length l) ls end.

  (** base.py 1113-1126 [__init__], the dict case and the headers/rows case *)
  Definition tbl_of_columns (cols : list (N * list A)) : table :=
    fold_left (λ t c, tbl_set t c.1 c.2) cols [].
  Definition tbl_init (headers : list N) (rows : list (list A)) : table :=
    match headers, rows with
    | _ :: _, _ :: _ =>
        let rotated := zip_all rows in
        tbl_of_columns (fold_left (λ d c, dset d c.1 c.2) (zip headers rotated) [])
    | _, _ => []
    end.

  (** base.py 305-339: [getpages] as it is, i.e. whole pages (inl) and arrays (inr) *)
  Fixpoint getitems_loop (is_reversed : bool) (scan_start scan_stop : Z) (range_item : rng)
      (off : Z) (c : column A T) : res (list (page A T + list A)) :=
    match c with
    | [] => Ok []
    | p :: c' =>
        let start := off in
        let end_ := off + plen p in
        let continue_ := getitems_loop is_reversed scan_start scan_stop range_item end_ c' in
        if (if is_reversed then scan_start <? start else scan_stop <? start) then Ok []
        else if (if is_reversed then end_ <? scan_stop else end_ <? scan_start) then continue_
        else
          res_bind (intercept (Rng start end_ 1) range_item) (λ ro,
            if rlen ro =? 0 then continue_
            else if rlen ro =? plen p then res_map (cons (inl p)) continue_
            else
              let search := Slice (Some (r_start ro - start)) (Some (r_stop ro - start))
                                  (Some (r_step ro)) in
              res_map (cons (inr (py_getslice (pdata p) search))) continue_)
    end.
  Definition item_data (i : page A T + list A) : list A :=
    match i with inl p => pdata p | inr xs => xs end.
  Definition getitems (c : column A T) (item : pyslice) : res (list (page A T + list A)) :=
    if sl_stepv item =? 0 then Err ValueError else
    let is_reversed := match sl_step item with None => false | Some k => negb (0 <? k) end in
    let '(start, stop, step) := slice_indices item (col_len c) in
    res_map (λ items, if is_reversed then map (λ i, inr (rev (item_data i))) (rev items) else items)
            (getitems_loop is_reversed start stop (Rng start stop step) 0 c).

  (** base.py 1273-1280: the new column for a slice *)
  Definition add_item (c : column A T) (i : page A T + list A) : column A T :=
    match i with
    | inr arr => col_extend ty ps c arr
    | inl p => c ++ [p]
    end.
  Definition sub_column (c : column A T) (slc : pyslice) : res (column A T) :=
    res_map (λ items, fold_left add_item items []) (getitems c slc).

  (** base.py 1205-1287 [__getitem__]: [keys] is the flattened key tuple. *)
  Inductive key := KName (n : N) | KInt (i : Z) | KSlice (s : pyslice).
  Inductive selection := SelColumn (c : column A T) | SelRow (r : list A) | SelTable (t : table).

  Fixpoint select_slices (t : table) (acc : table) (column_names : list N) (slc : pyslice) : res table :=
    match column_names with
    | [] => Ok acc
    | name :: rest =>
        match dget t name with
        | None => Err KeyError
        | Some c => res_bind (sub_column c slc) (λ c', select_slices t (dset acc name c') rest slc)
        end
    end.

  Fixpoint select_row (t : table) (column_names : list N) (row_no : Z) : res (list A) :=
    match column_names with
    | [] => Ok []
    | name :: rest =>
        match dget t name with
        | None => Err KeyError
        | Some c => res_bind (col_getslice c (Slice (Some row_no) (Some (row_no + 1)) None)) (λ arr,
                      match arr with
                      | [] => Err IndexError
                      | x :: _ => res_map (cons x) (select_row t rest row_no)
                      end)
        end
    end.

  Definition tbl_getitem (t : table) (keys : list key) : res selection :=
    match keys with
    | [] => Err IndexError (* keys[0] *)
    | _ =>
    let integers := omap (λ k, match k with KInt i => Some i | _ => None end) keys in
    let keys := match keys with [KInt i] => [KSlice (Slice None (Some i) None)] | _ => keys end in
    let column_names := omap (λ k, match k with KName n => Some n | _ => None end) keys in
    let column_names := match column_names with [] => t.*1 | _ => column_names end in
    if negb (forallb (λ n, bool_decide (n ∈ t.*1)) column_names) then Err KeyError else
    let slices := omap (λ k, match k with KSlice s => Some s | _ => None end) keys in
    let slc := default (Slice (Some 0) (Some (tbl_len t)) None) (head slices) in
    match slices, column_names, integers with
    | [], [name], _ =>
        match dget t name with Some c => Ok (SelColumn c) | None => Err KeyError end
    | _, _, [row_no] => res_map SelRow (select_row t column_names row_no)
    | [], _, _ =>
        Ok (SelTable (fold_left (λ acc n, match dget t n with Some c => dset acc n c | None => acc end)
                                column_names []))
    | _, _, _ => res_map SelTable (select_slices t [] column_names slc)
    end
    end.

  (** base.py 1320-1344 [__eq__] with a table; [same_object] is [id(self) == id(other)] *)
  Context (eqb neb : A → A → bool) (same_page : page A T → page A T → bool).
  Definition tbl_eq (same_object : bool) (t u : table) : bool :=
    if same_object then true else
    if negb (tbl_len t =? tbl_len u) then false else
    if (tbl_len t =? tbl_len u) && (tbl_len u =? 0) then true else
    (* dict key views are equal when they hold the same keys *)
    if negb (forallb (λ n, bool_decide (n ∈ u.*1)) t.*1 && forallb (λ n, bool_decide (n ∈ t.*1)) u.*1)
    then false else
    forallb (λ c, match dget u c.1 with
                  | Some d => col_eq_col eqb neb same_page c.2 d
                  | None => false (* excluded by the test above *)
                  end) t.

  (** base.py 1329-1330: with a dict; dict item views are equal when they have the same
      length and every item of one is in the other *)
  Definition list_eqb (l k : list A) : bool :=
    (length l =? length k)%nat && forallb (λ p, eqb p.1 p.2) (zip l k).
  Definition tbl_eq_dict (t : table) (d : list (N * list A)) : bool :=
    (length t =? length d)%nat &&
    forallb (λ c, match dget d c.1 with Some l => list_eqb (col_iter c.2) l | None => false end) t.

  (** base.py 1346-1348 [clear], 1455-1462 [copy] *)
  Definition tbl_clear (t : table) : table := [].
  Definition tbl_copy (t : table) : table :=
    fold_left (λ u c, dset u c.1 (col_copy c.2)) t [].

  (** base.py 1464-1478 [__imul__], 1480-1491 [__mul__] (without aliased columns) *)
  Fixpoint imul_cols (t : table) (n : Z) : res table :=
    match t with
    | [] => Ok []
    | (k, c) :: t => res_bind (col_imul c n) (λ c, res_map (cons (k, c)) (imul_cols t n))
    end.
  Definition tbl_imul (t : table) (n : Z) : res table :=
    if 0 <? n then imul_cols t n else Err TypeError.
  Definition tbl_mul (t : table) (n : Z) : res table := tbl_imul (tbl_copy t) n.

  (** base.py 1493-1519 [__iadd__], 1520-1537 [__add__] *)
  Definition tbl_iadd (t u : table) : res table :=
    if negb (forallb (λ n, bool_decide (n ∈ u.*1)) t.*1) then Err ValueError else
    if negb (forallb (λ n, bool_decide (n ∈ t.*1)) u.*1) then Err ValueError else
    Ok (map (λ c, (c.1, c.2 ++ default [] (dget u c.1))) t).
  Definition tbl_add (t u : table) : res table := tbl_iadd (tbl_copy t) u.

  (** A row argument of [add_rows]: a list or tuple, or a dict. *)
  Inductive row_arg := RowList (l : list A) | RowDict (d : list (N * A)).
  Definition arg_len (r : row_arg) : Z := match r with RowList l => zlen l | RowDict d => zlen d end.

  (** base.py 1587-1589 / 1591-1593: [d[k].append(v)] *)
  Fixpoint append_all (d : list (N * list A)) (kvs : list (N * A)) : res (list (N * list A)) :=
    match kvs with
    | [] => Ok d
    | (k, v) :: kvs => match dget d k with
                       | None => Err KeyError
                       | Some vs => append_all (dset d k (vs ++ [v])) kvs
                       end
    end.
  (** base.py 1580-1596 *)
  Fixpoint add_rows_loop (t : table) (d : list (N * list A)) (args : list row_arg)
      : res (list (N * list A)) :=
    match args with
    | [] => Ok d
    | arg :: args =>
        if negb (arg_len arg =? zlen t) then Err ValueError else
        res_bind (match arg with
                  | RowDict kvs => append_all d kvs
                  | RowList vs => append_all d (zip t.*1 vs)
                  end) (λ d, add_rows_loop t d args)
    end.
  (** base.py 1598-1601: [self.columns[n]] then [extend]; also 1605-1607 *)
  Fixpoint extend_cols (t : table) (d : list (N * list A)) : res table * table :=
    match d with
    | [] => (Ok t, t)
    | (n, values) :: d =>
        match dget t n with
        | None => (Err KeyError, t)
        | Some c => extend_cols (dset t n (col_extend ty ps c values)) d
        end
    end.

  (** base.py 1539-1613 [add_rows].  The second component is the table after
      the call, also when it raises.  [args] are the positional arguments, all
      lists, tuples or dicts; individual values [v1, ..., vk] (line 1575-1576)
      are [RowList [v1; ...; vk]]. *)
  Definition add_rows_args (t : table) (args : list row_arg) : res table * table :=
    match args with
    | [] => (Ok t, t)
    | _ => match add_rows_loop t (map (λ c, (c.1, [])) t) args with
           | Err e => (Err e, t)
           | Ok d => extend_cols t d
           end
    end.
  (** lines 1602-1611: keyword arguments, all lists / otherwise single values *)
  Definition add_rows_kwlists (t : table) (kw : list (N * list A)) : res table * table :=
    extend_cols t kw.
  Definition add_rows_kw (t : table) (kw : list (N * A)) : res table * table :=
    extend_cols t (map (λ p, (p.1, [p.2])) kw).

  (** base.py 1640-1664 [stack] *)
  Definition stack_one (len_self : Z) (cp : table) (c : N * column A T) : table :=
    let cp := if decide (c.1 ∈ cp.*1) then cp else tbl_set cp c.1 (replicate (Z.to_nat len_self) none) in
    dset cp c.1 (default [] (dget cp c.1) ++ c.2).
  Definition tbl_stack (t u : table) : table :=
    let cp := fold_left (stack_one (tbl_len t)) u (tbl_copy t) in
    fold_left (λ cp c, if decide (c.1 ∈ u.*1) then cp
                       else if 0 <? tbl_len cp
                       then dset cp c.1 (col_extend ty ps (default [] (dget cp c.1))
                                                    (replicate (Z.to_nat (tbl_len u)) none))
                       else cp) t cp.

  (** base.py 1927-1965 [index]: the keys are tuples of values up to [==] *)
  Context {K : Type} `{EqDecision K} (keyc : A → K).
  Definition col_keys (t : table) (args : list N) : res (list (list A)) :=
    fold_right (λ n r, match dget t n with
                       | None => Err KeyError
                       | Some c => res_map (cons (col_iter c)) r
                       end) (Ok []) args.
  Definition index_keys (ks : list (list K)) : list (list K * list Z) :=
    fold_left (λ d p, dset d p.2 (dget_or d p.2 [] ++ [p.1])) (enumerate ks) [].
  Definition tbl_index (t : table) (args : list N) : res (list (list K * list Z)) :=
    res_map (λ cols, index_keys (map (map keyc) (zip_all cols))) (col_keys t args).

  (** base.py 1967-1992 [unique_index]; [hash] is Python's hash of the key tuple *)
  Definition unique_ixs (hash : list K → Z) (ks : list (list K)) : list Z :=
    (fold_left (λ st p, let '(seen, unique) := st in
                        if decide (hash p.2 ∈ seen) then st
                        else (seen ++ [hash p.2], unique ++ [p.1]))
               (enumerate ks) ([], [])).2.
  Definition unique_index (hash : list K → Z) (t : table) (args : list N) : res (list Z) :=
    match args with
    | [] => Err ValueError
    | _ => res_map (λ cols, unique_ixs hash (map (map keyc) (zip_all cols))) (col_keys t args)
    end.
End Table.

Arguments table : clear implicits.
Arguments key : clear implicits.
Arguments selection : clear implicits.
Arguments row_arg : clear implicits.
