(** tablite/base.py: class [Column] (lines 199-1072) over immutable pages.

    A page ([SimplePage]/[Page], base.py 67-196) is a file written once plus the
    metadata [len] and [dtype] (type counts).  Here a page is the record of the
    stored values and the type counts; its file identity is not modelled in
    this file (see PageLife.v).  numpy arrays are lists; conversions
    between numpy dtypes are taken to preserve values. *)
From Verif.Spec Require Export PyList.
From Verif.Model Require Export Dict Intercept.
Local Open Scope Z_scope.

Section Column.
  (** [A]: cell values, [T]: Python types, [ty]: [pytype]/[type] of a value. *)
  Context {A T : Type} `{EqDecision T} (ty : A → T).

  (** [collections.Counter(pytype(v) for v in xs)] as used by
      datatypes.py 756-802 [pytype_from_iterable].  For non-object arrays the code
      takes the type of the first element times the length, which is the same
      for the homogeneous arrays it is applied to. *)
  Definition type_counts (xs : list A) : list (T * Z) :=
    fold_left (λ d x, dset d (ty x) (dget_or d (ty x) 0 + 1)) xs [].

  (** [cast pages v] is what [arr[i] = v] stores in an array [arr] obtained by
      unifying ([np_type_unify], datatypes.py 835-851) the arrays of [pages]: numpy
      converts the value to the array's dtype (identity for object arrays;
      truncation for fixed-width strings and ints, ValueError/TypeError if
      impossible).  [np_array xs] is what [np.array(xs)] holds for a Python list.
      Both are parameters of the functions below that depend on them;
      Model/PyVal.v gives the instances numpy has. *)
  Record page := MkPage { pdata : list A; ptypes : list (T * Z) }.

  (** [Page(path, array)] for an array whose metadata was freshly computed
      (base.py 159-196 with datatypes.py 756-832). *)
  Definition new_page (xs : list A) : page := MkPage xs (type_counts xs).

  (** [page.len] *)
  Definition plen (p : page) : Z := zlen (pdata p).

  Definition column := list page.

  (** base.py 212-213 [Column.__len__] *)
  Definition col_len (c : column) : Z := fold_left (λ n p, n + plen p) c 0.

  (** base.py 711-715 [Column.__iter__] *)
  Definition col_iter (c : column) : list A := concat (map pdata c).

  (** [arr[:k]], [arr[k:]], [arr[a:b]] on a numpy array *)
  Definition arr_upto (xs : list A) (k : Z) := py_getslice xs (Slice None (Some k) None).
  Definition arr_from (xs : list A) (k : Z) := py_getslice xs (Slice (Some k) None None).
  Definition arr_slice (xs : list A) (a b : Z) := py_getslice xs (Slice (Some a) (Some b) None).

  (** base.py 218-244 [Column._paginate] *)
  Fixpoint paginate_loop (values : list A) (start : Z) (ends : list Z) : list (list A) :=
    match ends with
    | [] => []
    | e :: ends => arr_slice values start e :: paginate_loop values e ends
    end.

  Definition paginate (ps : Z) (values : list A) : list (list A) :=
    let n := cdiv (zlen values) ps * ps in
    paginate_loop values 0 (py_range ps (n + 1) ps).

  (** base.py 252-269 [Column.extend] with an array, list or tuple *)
  Definition col_extend (ps : Z) (c : column) (values : list A) : column :=
    c ++ map new_page (paginate ps values).

  (** base.py 258-260 [Column.extend] with a Column *)
  Definition col_extend_col (c other : column) : column := c ++ other.

  (** base.py 200-210 [Column.__init__] *)
  Definition col_new (ps : Z) (values : list A) : column := col_extend ps [] values.

  (** base.py 271-275 [Column.clear] *)
  Definition col_clear (c : column) : column := [].

  (** base.py 305-328, the loop of [Column.getpages]: [off] is the running
      [end]; the result lists the arrays (shared pages are their data). *)
  Fixpoint getpages_loop (is_reversed : bool) (scan_start scan_stop : Z) (range_item : rng)
      (off : Z) (c : column) : res (list (list A)) :=
    match c with
    | [] => Ok []
    | p :: c' =>
        let start := off in
        let end_ := off + plen p in
        let continue_ := getpages_loop is_reversed scan_start scan_stop range_item end_ c' in
        if (if is_reversed then scan_start <? start else scan_stop <? start) then Ok [] (* break *)
        else if (if is_reversed then end_ <? scan_stop else end_ <? scan_start) then continue_
        else
          res_bind (intercept (Rng start end_ 1) range_item) (λ ro,
            if rlen ro =? 0 then continue_
            else if rlen ro =? plen p then res_map (cons (pdata p)) continue_
            else
              let search := Slice (Some (r_start ro - start)) (Some (r_stop ro - start))
                                  (Some (r_step ro)) in
              res_map (cons (py_getslice (pdata p) search)) continue_)
    end.

  (** base.py 277-339 [Column.getpages] with a slice *)
  Definition getpages (c : column) (item : pyslice) : res (list (list A)) :=
    if sl_stepv item =? 0 then Err ValueError (* slice.indices *) else
    let is_reversed := match sl_step item with None => false | Some k => negb (0 <? k) end in
    let '(start, stop, step) := slice_indices item (col_len c) in
    res_map (λ pages, if is_reversed then map (@rev A) (rev pages) else pages)
            (getpages_loop is_reversed start stop (Rng start stop step) 0 c).

  (** base.py 356-393 [Column.__getitem__] with a slice *)
  Definition col_getslice (c : column) (item : pyslice) : res (list A) :=
    res_map (@concat A) (getpages c item).

  (** base.py 293-296 and 356-393: [Column.__getitem__] with an int *)
  Definition col_getitem (c : column) (i : Z) : res A :=
    let k := if i <? 0 then col_len c + i else i in
    res_bind (col_getslice c (Slice (Some k) (Some (k + 1)) (Some 1))) (λ arr,
      match arr with
      | [] => Err IndexError
      | x :: _ => Ok x
      end).

  (** The first page with [start <= key < end] in a loop
      [start, end = end, end + page.len]; result: pages before, the page's start,
      the page, pages after. *)
  Fixpoint find_page (key off : Z) (before : column) (c : column)
      : option (column * Z * page * column) :=
    match c with
    | [] => None
    | p :: c' =>
        if (off <=? key) && (key <? off + plen p) then Some (before, off, p, c')
        else find_page key (off + plen p) (before ++ [p]) c'
    end.

  (** base.py 452-458: incremental update of the type counts when a value of
      type [old_dt] is replaced by one of type [new_dt]. *)
  Definition swap_type (d : list (T * Z)) (old_dt new_dt : T) : list (T * Z) :=
    let d := dset d new_dt (dget_or d new_dt 0 + 1) in
    let d := dset d old_dt (dget_or d old_dt 0 - 1) in
    if dget_or d old_dt 0 <=? 0 then ddel d old_dt else d.

  (** base.py 430-464 [Column._setitem_integer_key] *)
  Definition col_setitem (c : column) (key : Z) (value : A) : res column :=
    let length := col_len c in
    let key := if key <? 0 then length + key else key in
    if negb ((0 <=? key) && (key <? length)) then Err IndexError else
    match find_page key 0 [] c with
    | None => Ok c
    | Some (before, start, p, after) =>
        match pdata p !! Z.to_nat (key - start) with
        | None => Err IndexError (* cannot happen: start <= key < end *)
        | Some old =>
            let py_dtype := swap_type (ptypes p) (ty old) (ty value) in
            let data := <[Z.to_nat (key - start) := value]> (pdata p) in
            Ok (before ++ [MkPage data py_dtype] ++ after)
        end
    end.

  (** base.py 466-475 [Column._setitem_replace_all] *)
  Definition setitem_replace_all (ps : Z) (c : column) (value : list A) : column :=
    col_extend ps (col_clear c) value.

  (** base.py 477-497 [Column._setitem_extend]: [key.start] is given *)
  Definition setitem_extend (ps : Z) (c : column) (kstart : Z) (value : list A) : column :=
    match find_page kstart 0 [] c with
    | Some (before, start, p, _) =>
        let keep := arr_upto (pdata p) (kstart - start) in
        col_extend ps before (keep ++ value)
    | None => c ++ [new_page value]
    end.

  (** base.py 499-524 [Column._setitem_prextend]: [key.stop] is given *)
  Definition setitem_prextend (ps : Z) (c : column) (kstop : Z) (value : list A) : column :=
    if kstop =? col_len c then col_extend ps [] value else
    let kstop := if kstop <? 0
                 then let '(_, stop, _) := slice_indices (Slice None (Some kstop) None) (col_len c)
                      in stop
                 else kstop in
    match find_page kstop 0 [] c with
    | Some (_, start, p, tail) =>
        let keep := arr_from (pdata p) (kstop - start) in
        col_extend ps [] (value ++ keep) ++ tail
    | None => c
    end.

  (** base.py 541-559, the loop of [Column._setitem_insert]; accumulators are
      unchanged_head, head, tail, unchanged_tail. *)
  Fixpoint insert_loop (key_start key_stop off : Z) (c : column)
      (acc : column * list A * list A * column) : column * list A * list A * column :=
    match c with
    | [] => acc
    | p :: c' =>
        let start := off in
        let end_ := off + plen p in
        let '(uh, head, tail, ut) := acc in
        let uh := if end_ <=? key_start then uh ++ [p] else uh in
        let head := if (start <=? key_start) && (key_start <? end_)
                    then arr_upto (pdata p) (key_start - start) else head in
        let tail := if (start <=? key_stop) && (key_stop <? end_)
                    then arr_from (pdata p) (key_stop - start) else tail in
        let ut := if key_stop <? start then ut ++ [p] else ut in
        insert_loop key_start key_stop end_ c' (uh, head, tail, ut)
    end.

  (** base.py 526-563 [Column._setitem_insert] *)
  Definition setitem_insert (ps : Z) (c : column) (key : pyslice) (value : list A) : column :=
    let '(key_start, key_stop, _) := slice_indices key (col_len c) in
    let key_stop := if key_stop <? key_start then key_start else key_stop in
    let '(uh, head, tail, ut) := insert_loop key_start key_stop 0 c ([], [], [], []) in
    let new_middle := head ++ value ++ tail in
    uh ++ map new_page (paginate ps new_middle) ++ ut.

  (** base.py 579-592, the page loop of [Column._setitem_update]; accumulators:
      head, changed, tail, starts_on (unassigned at first). *)
  Fixpoint update_loop (key_start key_stop off : Z) (c : column)
      (acc : column * column * column * option Z) : column * column * column * option Z :=
    match c with
    | [] => acc
    | p :: c' =>
        let start := off in
        let end_ := off + plen p in
        let '(head, changed, tail, starts_on) := acc in
        let acc :=
          if (end_ <=? key_start) && bool_decide (changed = []) then
            (head ++ [p], changed, tail, starts_on)
          else if (start <=? key_start) && (key_start <? end_) then
            (head, changed ++ [p], tail, Some start)
          else if (start <=? key_stop) && (key_stop <? end_) then
            (head, changed ++ [p], tail, starts_on)
          else (head, changed, tail ++ [p], starts_on) in
        update_loop key_start key_stop end_ c' acc
    end.

  (** [arr[i] = v] on a numpy array: the value is converted to the dtype,
      negative positions count from the end *)
  Definition np_assign (conv : A → res A) (xs : list A) (i : Z) (v : A) : res (list A) :=
    res_bind (conv v) (λ v, py_setitem xs i v).

  (** base.py 598-599; [None] for [starts_on] is the unassigned local. *)
  Fixpoint update_assign (conv : A → res A) (new : list A) (starts_on : option Z)
      (ps : list (Z * A)) : res (list A) :=
    match ps with
    | [] => Ok new
    | (index, val) :: ps =>
        match starts_on with
        | None => Err UnboundLocalError
        | Some s => res_bind (np_assign conv new (index - s) val)
                             (λ new, update_assign conv new starts_on ps)
        end
    end.

  (** base.py 565-602 [Column._setitem_update].  [np_type_unify([])] is
      [np.concatenate([])], which raises ValueError. *)
  Definition setitem_update (cast : list page → A → res A) (ps : Z) (c : column)
      (key : pyslice) (value : list A) : res column :=
    if sl_stepv key =? 0 then Err ValueError else
    let '(key_start, key_stop, key_step) := slice_indices key (col_len c) in
    let seq := py_range key_start key_stop key_step in
    if zlen seq <? zlen value then Err ValueError else
    let '(head, changed, tail, starts_on) := update_loop key_start key_stop 0 c ([], [], [], None) in
    match changed with
    | [] => Err ValueError
    | _ =>
        let new := concat (map pdata changed) in
        res_map (λ new, head ++ map new_page (paginate ps new) ++ tail)
                (update_assign (cast changed) new starts_on (zip seq value))
    end.

  (** base.py 395-428 [Column.__setitem__] with a slice *)
  Definition col_setslice (cast : list page → A → res A) (ps : Z) (c : column) (key : pyslice) (value : list A) : res column :=
    let simple := match sl_step key with None => true | Some k => k =? 1 end in
    match sl_start key, sl_stop key, simple with
    | None, None, true => Ok (setitem_replace_all ps c value)
    | Some a, None, true => Ok (setitem_extend ps c a value)
    | None, Some b, true => Ok (setitem_prextend ps c b value)
    | Some _, Some _, true => Ok (setitem_insert ps c key value)
    | _, _, false => setitem_update cast ps c key value
    end.

  (** [np.delete(xs, idx)]: negative positions count from the end, positions
      outside [-n, n) raise IndexError, duplicates do not matter. *)
  Definition np_delete (xs : list A) (idx : list Z) : res (list A) :=
    let n := zlen xs in
    if forallb (λ i, (- n <=? i) && (i <? n)) idx
    then let norm := map (λ i, if i <? 0 then i + n else i) idx in
         Ok (filter_pos (λ i, bool_decide (i ∉ norm)) 0 xs)
    else Err IndexError.

  (** base.py 620-633 [Column._del_by_int]: no [break], [np.delete(data, [key])]
      with the column position.  The array keeps the metadata of [page.get()]
      (datatypes.py 813-816), so the type counts of the new page are the old ones. *)
  Fixpoint del_by_int_loop (key off : Z) (c : column) : res column :=
    match c with
    | [] => Ok []
    | p :: c' =>
        let end_ := off + plen p in
        if (off <=? key) && (key <? end_) then
          res_bind (np_delete (pdata p) [key]) (λ new,
            res_map (cons (MkPage new (ptypes p))) (del_by_int_loop key end_ c'))
        else res_map (cons p) (del_by_int_loop key end_ c')
    end.

  Definition col_delitem (c : column) (key : Z) : res column := del_by_int_loop key 0 c.

  (** base.py 645-657, the page loop of [Column._del_by_slice] *)
  Fixpoint del_loop (key_start key_stop off : Z) (c : column)
      (acc : column * column * column * option Z) : column * column * column * option Z :=
    match c with
    | [] => acc
    | p :: c' =>
        let start := off in
        let end_ := off + plen p in
        let '(head, changed, tail, starts_on) := acc in
        let acc :=
          if (key_stop <? start) && bool_decide (changed = []) then
            (head ++ [p], changed, tail, starts_on)
          else if (start <=? key_start) && (key_start <? end_) then
            (head, changed ++ [p], tail, Some start)
          else if (start <=? key_stop) && (key_stop <=? end_) then
            (head, changed ++ [p], tail, starts_on)
          else (head, changed, tail ++ [p], starts_on) in
        del_loop key_start key_stop end_ c' acc
    end.

  (** base.py 635-666 [Column._del_by_slice] *)
  Definition col_delslice (ps : Z) (c : column) (key : pyslice) : res column :=
    if sl_stepv key =? 0 then Err ValueError else
    let '(key_start, key_stop, key_step) := slice_indices key (col_len c) in
    let seq := py_range key_start key_stop key_step in
    let '(head, changed, tail, starts_on) := del_loop key_start key_stop 0 c ([], [], [], None) in
    match changed with
    | [] => Err ValueError (* np.concatenate([]) *)
    | _ =>
        let new := concat (map pdata changed) in
        let pruned := match seq, starts_on with
                      | [], _ => Ok new
                      | _, None => Err UnboundLocalError
                      | _, Some s => np_delete new (map (λ i, i - s) seq)
                      end in
        res_map (λ pruned, head ++ map new_page (paginate ps pruned) ++ tail) pruned
    end.

  (** base.py 692-704, one page of [Column.get_by_indices].  The value of a
      cell which no page has filled is Python's None, here [None].  Lines 706-708, which turn that
      None into an error (ints), nan (floats), False (bools) or the text None (texts) if the pages read have one dtype, are
      not modelled: they do nothing if every cell is filled (C11).
      [len(data) > (-1 - start)] (line 700) always holds since start >= 0. *)
  Definition gather_page (start : Z) (p : page) (indices : list Z) (values : list (option A))
      : res (list (option A)) :=
    let end_ := start + plen p in
    let hit i := ((start <=? i) && (i <? end_)) || (i =? -1) in
    (* np.take on an empty page with at least one request raises IndexError *)
    if existsb hit indices && bool_decide (pdata p = []) then Err IndexError else
    Ok (zip_with (λ i v,
          if hit i then
            if i =? -1 then list.last (pdata p) else znth (pdata p) (i - start)
          else v) indices values).

  Fixpoint gather_loop (off : Z) (c : column) (indices : list Z) (values : list (option A))
      : res (list (option A)) :=
    match c with
    | [] => Ok values
    | p :: c' => res_bind (gather_page off p indices values)
                          (λ values, gather_loop (off + plen p) c' indices values)
    end.

  (** base.py 668-709 [Column.get_by_indices] *)
  Definition get_by_indices (c : column) (indices : list Z) : res (list (option A)) :=
    gather_loop 0 c indices (replicate (length indices) None).

  (** base.py 717-752 [Column.__eq__].  [eqb] is [==] on cells, [neb] is [!=],
      [same_page] is identity of page objects. *)
  Section eq.
    Context (eqb neb : A → A → bool) (same_page : page → page → bool).

    (** [(a == b).all()] on arrays of equal length *)
    Definition arr_all_eq (xs ys : list A) : bool := forallb (λ p, eqb p.1 p.2) (zip xs ys).
    Definition arr_any_ne (xs ys : list A) : bool := existsb (λ p, neb p.1 p.2) (zip xs ys).

    (** list equality of [pages] with identity on pages *)
    Definition same_pages (c d : column) : bool :=
      (length c =? length d)%nat && forallb (λ p, same_page p.1 p.2) (zip c d).

    (** 724-725: a list or tuple *)
    Definition col_eq_list (c : column) (l : list A) : bool :=
      if negb (col_len c =? zlen l) then false else
      match col_getslice c (Slice None None None) with
      | Ok xs => forallb (λ p, eqb p.1 p.2) (zip xs l)
      | Err _ => false
      end.

    Definition same_layout (c d : column) : bool :=
      (length c =? length d)%nat && bool_decide (map plen c = map plen d).

    (** 727-742: a Column *)
    Definition col_eq_col (c d : column) : bool :=
      if negb (col_len c =? col_len d) then false else
      if same_pages c d then true else
      if same_layout c d then forallb (λ p, arr_all_eq (pdata p.1) (pdata p.2)) (zip c d) else
      forallb (λ p, negb (neb p.1 p.2)) (zip (col_iter c) (col_iter d)).

    (** 744-750: an array *)
    Fixpoint eq_arr_loop (off : Z) (c : column) (l : list A) : bool :=
      match c with
      | [] => true
      | p :: c' => if negb (arr_all_eq (pdata p) (arr_slice l off (off + plen p))) then false
                   else eq_arr_loop (off + plen p) c' l
      end.
    Definition col_eq_arr (c : column) (l : list A) : bool :=
      if negb (col_len c =? zlen l) then false else eq_arr_loop 0 c l.

    (** base.py 754-789 [Column.__ne__] *)
    Definition col_ne_list (c : column) (l : list A) : bool :=
      if negb (col_len c =? zlen l) then true else
      match col_getslice c (Slice None None None) with
      | Ok xs => existsb (λ p, neb p.1 p.2) (zip xs l)
      | Err _ => false
      end.

    Definition col_ne_col (c d : column) : bool :=
      if negb (col_len c =? col_len d) then true else
      if same_pages c d then false else
      if same_layout c d then existsb (λ p, negb (arr_all_eq (pdata p.1) (pdata p.2))) (zip c d) else
      existsb (λ p, neb p.1 p.2) (zip (col_iter c) (col_iter d)).

    Fixpoint ne_arr_loop (off : Z) (c : column) (l : list A) : bool :=
      match c with
      | [] => false
      | p :: c' => if arr_any_ne (pdata p) (arr_slice l off (off + plen p)) then true
                   else ne_arr_loop (off + plen p) c' l
      end.
    Definition col_ne_arr (c : column) (l : list A) : bool :=
      if negb (col_len c =? zlen l) then true else ne_arr_loop 0 c l.
  End eq.

  (** base.py 791-799 [Column.copy]: the list of pages is copied, the pages are shared *)
  Definition col_copy (c : column) : column := c.

  (** base.py 805-822 [Column.__imul__] *)
  Definition col_imul (c : column) (n : Z) : res column :=
    if 0 <? n then Ok (concat (replicate (Z.to_nat n) c)) else Err TypeError.

  (** base.py 824-842 [Column.__mul__] *)
  Definition col_mul (c : column) (n : Z) : res column := col_imul (col_copy c) n.

  (** base.py 844-852 [Column.__iadd__] with a list/tuple and with a Column *)
  Definition col_iadd (ps : Z) (c : column) (l : list A) : column := col_extend ps c l.
  Definition col_iadd_col (c d : column) : column := c ++ d.

  (** base.py 854-868 [Column.__contains__]; [set(self.pages)] visits every page *)
  Definition col_contains (eqb : A → A → bool) (c : column) (item : A) : bool :=
    existsb (λ p, existsb (λ x, eqb x item) (pdata p)) c.

  (** base.py 870-885 [Column.remove_all].  [eqb] is the equality used by
      [np.isin].  [np.compress] keeps the metadata of [page.get()], so the type
      counts of the new page are those of the old one. *)
  Definition remove_all_page (eqb : A → A → bool) (values : list A) (p : page) : page :=
    let bitmask := map (λ x, existsb (eqb x) values) (pdata p) in
    if existsb id bitmask
    then MkPage (map fst (filter (λ q : A * bool, q.2 = false) (zip (pdata p) bitmask))) (ptypes p)
    else p.
  Definition col_remove_all (eqb : A → A → bool) (c : column) (values : list A) : column :=
    map (remove_all_page eqb values) c.

  (** base.py 887-925 [Column.replace].  [mapping] lists the dict's items. *)
  Definition map_get (eqb : A → A → bool) (mapping : list (A * A)) (x : A) : option A :=
    list_find (λ kv, eqb x kv.1) mapping ≫= λ p, Some p.2.2.
  (** lines 910-922, for the elements selected by the bitmask *)
  Fixpoint replace_loop (conv : A → res A) (eqb : A → A → bool) (mapping : list (A * A))
      (warray : list A) (py_dtype : list (T * Z)) : res (list A * list (T * Z)) :=
    match warray with
    | [] => Ok ([], py_dtype)
    | v :: warray =>
        match map_get eqb mapping v with
        | None => Err KeyError
        | Some new =>
            res_bind (conv new) (λ stored,
            res_map (λ r, (stored :: r.1, r.2))
                    (replace_loop conv eqb mapping warray (swap_type py_dtype (ty v) (ty new))))
        end
    end.
  (** line 924: [data[bitmask] = warray] *)
  Fixpoint put_masked (data : list A) (bitmask : list bool) (warray : list A) : list A :=
    match data, bitmask, warray with
    | x :: data, true :: bitmask, w :: warray => w :: put_masked data bitmask warray
    | x :: data, _ :: bitmask, _ => x :: put_masked data bitmask warray
    | _, _, _ => data
    end.
  Definition replace_page (cast : list page → A → res A) (np_array : list A → list A)
      (eqb : A → A → bool) (mapping : list (A * A)) (p : page) : res page :=
    let to_replace := np_array (map fst mapping) in
    let bitmask := map (λ x, existsb (eqb x) to_replace) (pdata p) in
    if existsb id bitmask then
      let warray := map fst (filter (λ q : A * bool, q.2 = true) (zip (pdata p) bitmask)) in
      res_map (λ r, MkPage (put_masked (pdata p) bitmask r.1) r.2)
              (replace_loop (cast [p]) eqb mapping warray (ptypes p))
    else Ok p.
  Fixpoint col_replace (cast : list page → A → res A) (np_array : list A → list A)
      (eqb : A → A → bool) (c : column) (mapping : list (A * A)) : res column :=
    match c with
    | [] => Ok []
    | p :: c => res_bind (replace_page cast np_array eqb mapping p) (λ p,
                  res_map (cons p) (col_replace cast np_array eqb c mapping))
    end.

  (** [Counter.__iadd__]: add the counts, then drop the non-positive ones *)
  Definition counter_iadd (d other : list (T * Z)) : list (T * Z) :=
    filter (λ kv, 0 < kv.2)
           (fold_left (λ d kv, dset d kv.1 (dget_or d kv.1 0 + kv.2)) other d).

  (** base.py 927-938 [Column.types] *)
  Definition col_types (c : column) : list (T * Z) :=
    fold_left (λ d p, counter_iadd d (ptypes p)) c [].
End Column.

Arguments page : clear implicits.
Arguments column : clear implicits.
