(** C01-C15 and the column part of C17: tablite's [Column] (base.py 199-1072).

    [col_iter c] is what [list(col)] gives; the right-hand sides are the
    functions of Spec/PyList.v (Python's own list semantics) and
    Spec/Counts.v.  [ps] is [Config.PAGE_SIZE]; a column is any list of pages,
    so every statement ranges over all page layouts. *)
From Verif.Spec Require Import PyList Counts.
From Verif.Model Require Import Column ColumnOps ColumnStats Dtype.
From Verif.Proof Require Import ColumnTwoPages ColumnRead ColumnWrite ColumnMisc ColumnStatsProofs ColumnFinal ColumnRefute.
Local Open Scope Z_scope.

(** ** C01 *)
Theorem C01_store_reads_back :
  ∀ {A T} `{EqDecision T} (ty : A → T) ps vs0 (puts : list (list A + column A T)),
  0 < ps →
  let c := fold_left (λ c q, match q with
                             | inl vs => col_extend ty ps c vs
                             | inr d => col_extend_col c d
                             end) puts (col_new ty ps vs0) in
  let stored := vs0 ++ concat (map (λ q, match q with inl vs => vs | inr d => col_iter d end) puts) in
  col_iter c = stored ∧
  col_getslice c (Slice None None None) = Ok stored ∧
  col_len c = zlen stored ∧
  (Forall (λ q, match q with inl _ => True | inr d => Forall (λ p, 1 <= plen p <= ps) d end) puts →
   Forall (λ p, 1 <= plen p <= ps) c).
Proof. exact @store_all. Qed.
Example C01_example :
  let c := col_extend_col (col_extend one_ty 2 (col_new one_ty 2 [1; 2; 3]) [4; 5; 6]) (zcol [[7]]) in
  col_iter c = [1; 2; 3; 4; 5; 6; 7] ∧ map plen c = [2; 1; 2; 1; 1].
Proof. by vm_compute. Qed.
Print Assumptions C01_store_reads_back.

(** ** C02 *)
Theorem C02_forward_slice :
  ∀ {A T} (c : column A T) (s : pyslice),
  0 < sl_stepv s → col_getslice c s = Ok (py_getslice (col_iter c) s).
Proof. exact @col_getslice_pos. Qed.
Example C02_example :
  col_getslice (zcol [[0; 1]; []; [2; 3; 4]; [5; 6; 7; 8; 9]]) (Slice (Some (-9)) (Some 100) (Some 3))
  = Ok [1; 4; 7].
Proof. by vm_compute. Qed.
Print Assumptions C02_forward_slice.

(** ** C03: full claim: for every slice with a negative step the column gives
    what the list gives.  False for steps below -1; true for step -1. *)
Theorem C03_reverse_slice_refuted :
  ∃ (c : column Z unit) s, sl_stepv s < 0 ∧ col_getslice c s ≠ Ok (py_getslice (col_iter c) s).
Proof. exact reverse_stride_wrong. Qed.
Theorem C03_reverse_slice_partial :
  ∀ {A T} (c : column A T) (s : pyslice),
  sl_stepv s = -1 → col_getslice c s = Ok (py_getslice (col_iter c) s).
Proof. exact @col_getslice_neg1. Qed.
(** what every negative step really gives: the whole span, reversed *)
Theorem C03_reverse_slice_actual :
  ∀ {A T} (c : column A T) (s : pyslice) a b st,
  sl_stepv s < 0 → slice_indices s (zlen (col_iter c)) = (a, b, st) →
  col_getslice c s = Ok (rev (filter_pos (in_range (b + 1) (a + 1) 1) 0 (col_iter c))).
Proof. exact @col_getslice_neg. Qed.
Example C03_example :
  col_getslice (zcol [[0; 1]; [2; 3; 4]; [5]]) (Slice (Some 4) (Some 0) (Some (-1))) = Ok [4; 3; 2; 1].
Proof. by vm_compute. Qed.
Print Assumptions C03_reverse_slice_refuted.
Print Assumptions C03_reverse_slice_partial.
Print Assumptions C03_reverse_slice_actual.

(** ** C04: full claim: [col_getitem c i = py_getitem (col_iter c) i] for every
    integer [i].  False below [-len - 1]. *)
Theorem C04_getitem_refuted :
  ∃ (c : column Z unit) i, col_getitem c i ≠ py_getitem (col_iter c) i.
Proof. exact getitem_wrong. Qed.
Theorem C04_getitem_partial :
  ∀ {A T} (c : column A T) i,
  - zlen (col_iter c) - 1 <= i → col_getitem c i = py_getitem (col_iter c) i.
Proof. exact @getitem_valid. Qed.
Example C04_example :
  col_getitem (zcol [[5; 6]; [7]]) (-1) = Ok 7 ∧ col_getitem (zcol [[5; 6]; [7]]) 3 = Err IndexError
  ∧ col_getitem (zcol [[5; 6]; [7]]) (-4) = Err IndexError.
Proof. by vm_compute. Qed.
Print Assumptions C04_getitem_refuted.
Print Assumptions C04_getitem_partial.

(** ** C05 *)
Theorem C05_setitem :
  ∀ {A T} `{EqDecision T} (ty : A → T) (c : column A T) i v,
  match col_setitem ty c i v with
  | Ok c' => py_setitem (col_iter c) i v = Ok (col_iter c') ∧ map plen c' = map plen c
  | Err e => py_setitem (col_iter c) i v = Err e
  end.
Proof. exact @col_setitem_spec. Qed.
Example C05_example :
  res_map col_iter (col_setitem one_ty (zcol [[1; 2]; []; [3; 4]]) (-2) 9) = Ok [1; 2; 9; 4].
Proof. by vm_compute. Qed.
Print Assumptions C05_setitem.

(** ** C06: both bounds given or both missing *)
Theorem C06_setslice :
  ∀ {A T} `{EqDecision T} (ty : A → T) cast ps (c : column A T) key vs,
  0 < ps → sl_stepv key = 1 → (is_Some (sl_start key) ↔ is_Some (sl_stop key)) →
  res_map col_iter (col_setslice ty cast ps c key vs) = Ok (py_setslice (col_iter c) key vs).
Proof. exact @setslice_closed. Qed.
Example C06_example :
  res_map col_iter (col_setslice one_ty id_cast 2 (zcol [[1; 2]; [3; 4]; []; [5]]) (Slice (Some 1) (Some (-1)) None) [7; 8; 9])
  = Ok [1; 7; 8; 9; 5].
Proof. by vm_compute. Qed.
Print Assumptions C06_setslice.

(** ** C07: full claim: the same for slices with one bound.  False for a
    negative start, for a stop beyond the end and for a negative stop on an empty
    column. *)
Theorem C07_setslice_start_refuted :
  ∃ (c : column Z unit) a vs,
    res_map col_iter (col_setslice one_ty id_cast 2 c (Slice (Some a) None None) vs)
    ≠ Ok (py_setslice (col_iter c) (Slice (Some a) None None) vs).
Proof. exact setslice_open_start_wrong. Qed.
Theorem C07_setslice_stop_refuted :
  ∃ (c : column Z unit) b vs,
    res_map col_iter (col_setslice one_ty id_cast 2 c (Slice None (Some b) None) vs)
    ≠ Ok (py_setslice (col_iter c) (Slice None (Some b) None) vs).
Proof. exact setslice_open_stop_wrong. Qed.
Theorem C07_setslice_start_partial :
  ∀ {A T} `{EqDecision T} (ty : A → T) cast ps (c : column A T) a st vs,
  0 < ps → (st = None ∨ st = Some 1) → 0 <= a →
  res_map col_iter (col_setslice ty cast ps c (Slice (Some a) None st) vs)
  = Ok (py_setslice (col_iter c) (Slice (Some a) None st) vs).
Proof. exact @setslice_open_start. Qed.
Theorem C07_setslice_stop_partial :
  ∀ {A T} `{EqDecision T} (ty : A → T) cast ps (c : column A T) b st vs,
  0 < ps → (st = None ∨ st = Some 1) → b <= zlen (col_iter c) → (b < 0 → col_iter c ≠ []) →
  res_map col_iter (col_setslice ty cast ps c (Slice None (Some b) st) vs)
  = Ok (py_setslice (col_iter c) (Slice None (Some b) st) vs).
Proof. exact @setslice_open_stop. Qed.
Example C07_example :
  res_map col_iter (col_setslice one_ty id_cast 2 (zcol [[1; 2]; [3; 4]]) (Slice (Some 3) None None) [7; 8])
  = Ok [1; 2; 3; 7; 8] ∧
  res_map col_iter (col_setslice one_ty id_cast 2 (zcol [[1; 2]; [3; 4]]) (Slice None (Some (-1)) None) [7])
  = Ok [7; 4].
Proof. by vm_compute. Qed.
Print Assumptions C07_setslice_start_refuted.
Print Assumptions C07_setslice_stop_refuted.
Print Assumptions C07_setslice_start_partial.
Print Assumptions C07_setslice_stop_partial.

(** ** C08: full claim: [res_map col_iter (col_setslice ... c s vs) =
    py_setslice_ext (col_iter c) s vs] for every step other than 1.  False: across
    pages values end up in wrong places, too few values are accepted, numpy
    truncates values to the page's dtype.  True when the slice stays within one
    page or goes forward into the next, the number of values is right and the dtype
    holds them. *)
Theorem C08_setslice_step_refuted :
  ∃ (c : column Z unit) k vs c' l,
    let s := Slice None None (Some k) in
    col_setslice one_ty id_cast 2 c s vs = Ok c' ∧
    py_setslice_ext (col_iter c) s vs = Ok l ∧ col_iter c' ≠ l.
Proof. exact setslice_ext_wrong. Qed.
Theorem C08_setslice_step_short_refuted :
  ∃ (c : column Z unit) k vs c',
    let s := Slice None None (Some k) in
    col_setslice one_ty id_cast 2 c s vs = Ok c' ∧
    py_setslice_ext (col_iter c) s vs = Err ValueError.
Proof. exact setslice_ext_short_accepted. Qed.
Theorem C08_setslice_step_dtype_refuted :
  ∃ (c : column cell ctype) k vs c',
    let s := Slice None None (Some k) in
    col_setslice cty np_cast 9 c s vs = Ok c' ∧
    py_setslice_ext (col_iter c) s vs ≠ Ok (col_iter c').
Proof. exact setslice_ext_truncates. Qed.
Theorem C08_setslice_step_partial :
  ∀ {A T} `{EqDecision T} (ty : A → T) cast ps (pre : column A T) p post key vs ks kp st,
  let c := pre ++ p :: post in
  let off := zlen (col_iter pre) in
  0 < ps → sl_stepv key ≠ 0 →
  slice_indices key (zlen (col_iter c)) = (ks, kp, st) →
  off <= ks < off + plen p →
  (kp < off + plen p ∨ post = []) →
  Forall (λ i, off <= i < off + plen p) (py_range ks kp st) →
  Forall (λ v, cast [p] v = Ok v) vs →
  length vs = length (py_range ks kp st) →
  res_map col_iter (setitem_update ty cast ps c key vs) = py_setslice_ext (col_iter c) key vs.
Proof. exact @setitem_update_in_page. Qed.
(** Forward slices that start in one page and stop within the next. *)
Theorem C08_setslice_step_two_pages_partial :
  ∀ {A T} `{EqDecision T} (ty : A → T) cast ps (pre : column A T) p q post key vs ks kp st,
  let c := pre ++ p :: q :: post in
  let off := zlen (col_iter pre) in
  0 < ps → 0 < sl_stepv key →
  slice_indices key (zlen (col_iter c)) = (ks, kp, st) →
  off <= ks < off + plen p → off + plen p <= kp < off + plen p + plen q →
  Forall (λ v, cast [p; q] v = Ok v) vs →
  length vs = length (py_range ks kp st) →
  res_map col_iter (setitem_update ty cast ps c key vs) = py_setslice_ext (col_iter c) key vs.
Proof. exact @setitem_update_two_pages. Qed.
Example C08_two_pages_example :
  let c := zcol [[0]; [1; 2]; [3; 4; 5]; [6]] in
  let key := Slice (Some 2) (Some 5) (Some 2) in
  slice_indices key (zlen (col_iter c)) = (2, 5, 2) ∧ py_range 2 5 2 = [2; 4] ∧
  res_map col_iter (setitem_update one_ty id_cast 3 c key [20; 40]) = Ok [0; 1; 20; 3; 40; 5; 6].
Proof. by vm_compute. Qed.
Example C08_example :
  let c := zcol [[1; 2]; [3; 4; 5; 6; 7]] in
  let key := Slice (Some 6) (Some 2) (Some (-2)) in
  slice_indices key (zlen (col_iter c)) = (6, 2, -2) ∧
  py_range 6 2 (-2) = [6; 4] ∧
  res_map col_iter (setitem_update one_ty id_cast 3 c key [70; 50]) = Ok [1; 2; 3; 4; 50; 6; 70].
Proof. by vm_compute. Qed.
Print Assumptions C08_setslice_step_refuted.
Print Assumptions C08_setslice_step_short_refuted.
Print Assumptions C08_setslice_step_dtype_refuted.
Print Assumptions C08_setslice_step_partial.
Print Assumptions C08_setslice_step_two_pages_partial.

(** ** C09: full claim: [res_map col_iter (col_delitem c i) = py_delitem
    (col_iter c) i].  False outside the first page (wrong element or IndexError)
    and for every index that is negative or too large (silently ignored). *)
Theorem C09_delitem_refuted :
  ∃ (c : column Z unit) i c', 0 <= i < col_len c ∧ col_delitem c i = Ok c' ∧
    py_delitem (col_iter c) i ≠ Ok (col_iter c').
Proof. exact delitem_wrong. Qed.
Theorem C09_delitem_silent_refuted :
  ∃ (c : column Z unit) i, col_delitem c i = Ok c ∧ py_delitem (col_iter c) i ≠ Ok (col_iter c).
Proof. exact delitem_silent. Qed.
Theorem C09_delitem_partial :
  ∀ {A T} (p : page A T) c i,
  0 <= i < plen p → res_map col_iter (col_delitem (p :: c) i) = py_delitem (col_iter (p :: c)) i.
Proof. exact @del_first_page. Qed.
Example C09_example : res_map col_iter (col_delitem (zcol [[1; 2; 3]; [4]]) 1) = Ok [1; 3; 4].
Proof. by vm_compute. Qed.
Print Assumptions C09_delitem_refuted.
Print Assumptions C09_delitem_silent_refuted.
Print Assumptions C09_delitem_partial.

(** ** C10: full claim: [res_map col_iter (col_delslice ... c s) = Ok
    (py_delslice (col_iter c) s)].  False: pages before the slice end up after it;
    some reverse slices raise.  True when the slice stays in the first page or goes
    forward into the second. *)
Theorem C10_delslice_refuted :
  ∃ (c : column Z unit) s c', col_delslice one_ty 2 c s = Ok c' ∧ col_iter c' ≠ py_delslice (col_iter c) s.
Proof. exact delslice_wrong. Qed.
Theorem C10_delslice_raises_refuted :
  ∃ (c : column Z unit) s, col_delslice one_ty 2 c s = Err ValueError ∧ sl_stepv s = -1.
Proof. exact delslice_raises. Qed.
Theorem C10_delslice_partial :
  ∀ {A T} `{EqDecision T} (ty : A → T) ps (p : page A T) post key ks kp st,
  let c := p :: post in
  0 < ps → sl_stepv key ≠ 0 →
  slice_indices key (zlen (col_iter c)) = (ks, kp, st) →
  0 <= ks < plen p → 0 <= kp →
  (kp < plen p ∨ post = []) →
  Forall (λ i, 0 <= i < plen p) (py_range ks kp st) →
  res_map col_iter (col_delslice ty ps c key) = Ok (py_delslice (col_iter c) key).
Proof. exact @col_delslice_first_page. Qed.
(** Forward slices that start in the first page and stop in the second. *)
Theorem C10_delslice_two_pages_partial :
  ∀ {A T} `{EqDecision T} (ty : A → T) ps p q (post : column A T) key ks kp st,
  let c := p :: q :: post in
  0 < ps → 0 < sl_stepv key →
  slice_indices key (zlen (col_iter c)) = (ks, kp, st) →
  0 <= ks < plen p → plen p <= kp <= plen p + plen q → (kp < plen p + plen q ∨ post = []) →
  res_map col_iter (col_delslice ty ps c key) = Ok (py_delslice (col_iter c) key).
Proof. exact @col_delslice_two_pages. Qed.
Example C10_two_pages_example :
  let c := zcol [[1; 2; 3]; [4; 5; 6]; [7]] in
  slice_indices (Slice (Some 1) (Some (-2)) None) (zlen (col_iter c)) = (1, 5, 1) ∧
  res_map col_iter (col_delslice one_ty 2 c (Slice (Some 1) (Some (-2)) None)) = Ok [1; 6; 7].
Proof. by vm_compute. Qed.
Example C10_example :
  let c := zcol [[1; 2; 3; 4; 5]; [6]] in
  slice_indices (Slice (Some 0) (Some 4) (Some 2)) (zlen (col_iter c)) = (0, 4, 2) ∧
  res_map col_iter (col_delslice one_ty 2 c (Slice (Some 0) (Some 4) (Some 2))) = Ok [2; 4; 5; 6].
Proof. by vm_compute. Qed.
Print Assumptions C10_delslice_refuted.
Print Assumptions C10_delslice_raises_refuted.
Print Assumptions C10_delslice_partial.
Print Assumptions C10_delslice_two_pages_partial.

(** ** C11 *)
Theorem C11_gather :
  ∀ {A T} (c : column A T) idx,
  Forall (λ i, 0 <= i < zlen (col_iter c)) idx →
  ∃ vs, get_by_indices c idx = Ok (map Some vs) ∧
        Forall2 (λ i v, py_getitem (col_iter c) i = Ok v) idx vs.
Proof. exact @gather_spec. Qed.
Example C11_example :
  get_by_indices (zcol [[10; 11]; []; [12; 13; 14]]) [4; 0; 2; 4] = Ok (map Some [14; 10; 12; 14]).
Proof. by vm_compute. Qed.
Print Assumptions C11_gather.

(** ** C12: [eqb] is [==] and [neb] is [!=] on cells.  They are assumed
    reflexive resp. complementary (so columns holding NaN are excluded), and two
    page objects that are identical hold the same data. *)
Theorem C12_eq_list :
  ∀ {A T} (eqb : A → A → bool) (c : column A T) l,
  col_eq_list eqb c l = true ↔ Forall2 (λ x y, eqb x y = true) (col_iter c) l.
Proof. exact @col_eq_list_spec. Qed.
Theorem C12_eq_array :
  ∀ {A T} (eqb : A → A → bool) (c : column A T) l,
  col_eq_arr eqb c l = true ↔ Forall2 (λ x y, eqb x y = true) (col_iter c) l.
Proof. exact @col_eq_arr_spec. Qed.
Theorem C12_eq_column :
  ∀ {A T} (eqb neb : A → A → bool) same_page,
  (∀ x, eqb x x = true) → (∀ x y, neb x y = negb (eqb x y)) →
  (∀ p q : page A T, same_page p q = true → p = q) →
  ∀ c d : column A T,
  col_eq_col eqb neb same_page c d = true ↔ Forall2 (λ x y, eqb x y = true) (col_iter c) (col_iter d).
Proof. exact @col_eq_col_spec. Qed.
Theorem C12_ne_list :
  ∀ {A T} (eqb neb : A → A → bool), (∀ x y, neb x y = negb (eqb x y)) →
  ∀ (c : column A T) l, col_ne_list neb c l = negb (col_eq_list eqb c l).
Proof. exact @col_ne_list_spec. Qed.
Theorem C12_ne_array :
  ∀ {A T} (eqb neb : A → A → bool), (∀ x y, neb x y = negb (eqb x y)) →
  ∀ (c : column A T) l, col_ne_arr neb c l = negb (col_eq_arr eqb c l).
Proof. exact @col_ne_arr_spec. Qed.
Theorem C12_ne_column :
  ∀ {A T} (eqb neb : A → A → bool) same_page,
  ∀ c d : column A T,
  col_ne_col eqb neb same_page c d = negb (col_eq_col eqb neb same_page c d).
Proof. exact @col_ne_col_spec. Qed.
Example C12_example :
  col_eq_col Z.eqb (λ x y, negb (x =? y)) (λ _ _, false) (zcol [[1; 2]; [3]]) (zcol [[1]; []; [2; 3]]) = true
  ∧ col_eq_col Z.eqb (λ x y, negb (x =? y)) (λ _ _, false) (zcol [[1; 2]; [3]]) (zcol [[1]; [2; 4]]) = false.
Proof. by vm_compute. Qed.
Print Assumptions C12_eq_list.
Print Assumptions C12_eq_array.
Print Assumptions C12_eq_column.
Print Assumptions C12_ne_list.
Print Assumptions C12_ne_array.
Print Assumptions C12_ne_column.

(** ** C13: full claim: the type counts are exact after every history.
    False after [del col[i]] and after [remove_all].  True for histories of the
    other operations (for [replace] see C14_replace_partial: [types_ok] says that
    the counts of every page are exact). *)
Theorem C13_types_del_refuted :
  ∃ c : column Z unit, built one_ty id_cast 4 (λ _, True) c ∧
    ¬ counts_exactly (col_types c) (map one_ty (col_iter c)).
Proof. exact built_del_types_wrong. Qed.
Theorem C13_types_remove_all_refuted :
  ∃ c : column Z unit,
    built one_ty id_cast 4 (λ o, match o with OpDelItem _ => False | _ => True end) c ∧
    ¬ counts_exactly (col_types c) (map one_ty (col_iter c)).
Proof. exact built_remove_types_wrong. Qed.
Theorem C13_types_partial :
  ∀ {A T} `{EqDecision T} (ty : A → T) cast ps (allowed : col_op A T → Prop) (c : column A T),
  (∀ o, allowed o → match o with OpDelItem _ | OpRemoveAll _ _ => False | _ => True end) →
  built ty cast ps allowed c → counts_exactly (col_types c) (map ty (col_iter c)).
Proof. exact @built_counts. Qed.
Example C13_example :
  ∃ c, built cty np_cast 2 (λ o, match o with OpDelItem _ | OpRemoveAll _ _ => False | _ => True end) c ∧
       col_iter c = [CInt 1; CStr "x"; CInt 3] ∧ col_types c = [(TInt, 2); (TStr, 1)].
Proof.
  exists [MkPage [CInt 1; CStr "x"] [(TInt, 1); (TStr, 1)]; MkPage [CInt 3] [(TInt, 1)]]. split; [|done].
  eapply (built_op _ _ _ _ (col_new cty 2 [CInt 1; CInt 2; CInt 3]) (OpSetItem 1 (CStr "x")));
    [constructor|done|done|by vm_compute].
Qed.
Print Assumptions C13_types_del_refuted.
Print Assumptions C13_types_remove_all_refuted.
Print Assumptions C13_types_partial.

(** ** C14 *)
Theorem C14_remove_all :
  ∀ {A T} (eqb : A → A → bool) (c : column A T) vs,
  col_iter (col_remove_all eqb c vs) = filter (λ x, existsb (eqb x) vs = false) (col_iter c).
Proof. exact @remove_all_spec. Qed.
(** full claim for replace: [col_replace ... c m = Ok c'] with [col_iter c' = map
    (subst_value eqb m) (col_iter c)].  False: numpy cuts the new value down to
    the page's dtype; keys of mixed types are all turned into text. *)
Theorem C14_replace_dtype_refuted :
  ∃ (c : column cell ctype) m c', col_replace cty np_cast np_array_of ceqb c m = Ok c' ∧
    col_iter c' ≠ map (subst_value ceqb m) (col_iter c).
Proof. exact replace_truncates. Qed.
Theorem C14_replace_keys_refuted :
  ∃ (c : column cell ctype) m c', col_replace cty np_cast np_array_of ceqb c m = Ok c' ∧
    col_iter c' ≠ map (subst_value ceqb m) (col_iter c).
Proof. exact replace_skips. Qed.
(** the missing part: keys that numpy keeps apart and values that the page's
    dtype can hold *)
Theorem C14_replace_partial :
  ∀ {A T} `{EqDecision T} (ty : A → T) cast np_array (eqb : A → A → bool) (c : column A T) m,
  np_array (map fst m) = map fst m →
  (∀ p, p ∈ c → Forall (λ kv, cast [p] kv.2 = Ok kv.2) m) →
  ∃ c', col_replace ty cast np_array eqb c m = Ok c' ∧
        col_iter c' = map (subst_value eqb m) (col_iter c) ∧
        map plen c' = map plen c ∧ (types_ok ty c → types_ok ty c').
Proof. exact @col_replace_spec. Qed.
Example C14_example :
  col_iter (col_remove_all Z.eqb (zcol [[1; 2]; [2; 3; 1]]) [2; 7]) = [1; 3; 1] ∧
  res_map col_iter (col_replace cty np_cast np_array_of ceqb
      [new_page cty [CInt 1; CInt 2]; new_page cty [CInt 3; CInt 1]] [(CInt 1, CInt 2); (CInt 2, CInt 5)])
  = Ok [CInt 2; CInt 5; CInt 3; CInt 2].
Proof. by vm_compute. Qed.
Print Assumptions C14_remove_all.
Print Assumptions C14_replace_dtype_refuted.
Print Assumptions C14_replace_keys_refuted.
Print Assumptions C14_replace_partial.

(** ** C15: [key x] is the equality class of [x] under Python's [==] *)
Theorem C15_index :
  ∀ {A T K} `{EqDecision K} (key : A → K) (c : column A T),
  indexes_exactly (col_index key c) (map key (col_iter c)).
Proof. exact @col_index_spec. Qed.
(** full claim for histogram and count: exact whatever the types.  False:
    [np.unique] merges 1 and True in an object page, and [count] takes types into
    account only in object pages. *)
Theorem C15_histogram_refuted :
  ∃ c : column cell ctype,
    ¬ counts_exactly (col_histogram cty ckey (λ _, true) c) (map (λ x, (cty x, ckey x)) (col_iter c)).
Proof. exact histogram_merges. Qed.
Theorem C15_count_layout_refuted :
  ∃ (c d : column cell ctype) v, col_iter c = col_iter d ∧
    let obj p := bool_decide (dtype_of (pdata p) = DObj) in
    col_count cty ckey obj c v ≠ col_count cty ckey obj d v.
Proof. exact count_layout. Qed.
Theorem C15_histogram_partial :
  ∀ {A T K} `{EqDecision T, EqDecision K} (ty : A → T) (key : A → K) comparable (c : column A T),
  Forall (λ p, comparable (pdata p) = true → type_faithful ty key (pdata p)) c →
  counts_exactly (col_histogram ty key comparable c) (map (λ x, (ty x, key x)) (col_iter c)).
Proof. exact @col_histogram_spec. Qed.
Theorem C15_unique_partial :
  ∀ {A T K} `{EqDecision T, EqDecision K} (ty : A → T) (key : A → K) comparable (c : column A T),
  c ≠ [] → type_faithful ty key (col_iter c) →
  ∃ u, col_unique ty key comparable c = Ok u ∧
       NoDup (map key u) ∧ (∀ k, k ∈ map key u ↔ k ∈ map key (col_iter c)).
Proof. exact @col_unique_spec. Qed.
Theorem C15_unique_empty_refuted :
  col_unique cty ckey (λ _, true) ([] : column cell ctype) = Err ValueError.
Proof. exact unique_empty_raises. Qed.
Theorem C15_count_partial :
  ∀ {A T K} `{EqDecision T, EqDecision K} (ty : A → T) (key : A → K) is_obj (c : column A T) v,
  type_faithful ty key (v :: col_iter c) →
  col_count ty key is_obj c v = count_if (λ x, key x = key v) (col_iter c).
Proof. exact @col_count_spec. Qed.
Example C15_example :
  col_index ckey [new_page cty [CStr "a"; CStr "b"]; new_page cty [CStr "a"]]
  = [(inr (Some "a"), [0; 2]); (inr (Some "b"), [1])] ∧
  col_histogram cty ckey (λ _, true) [new_page cty [CStr "a"; CStr "b"]; new_page cty [CStr "a"]]
  = [((TStr, inr (Some "a")), 2); ((TStr, inr (Some "b")), 1)].
Proof. by vm_compute. Qed.
Print Assumptions C15_index.
Print Assumptions C15_histogram_refuted.
Print Assumptions C15_count_layout_refuted.
Print Assumptions C15_histogram_partial.
Print Assumptions C15_unique_partial.
Print Assumptions C15_unique_empty_refuted.
Print Assumptions C15_count_partial.

(** ** C17, the part on single columns *)
Theorem C17_column_repeat :
  ∀ {A T} (c : column A T) n,
  0 < n → res_map col_iter (col_imul c n) = Ok (concat (replicate (Z.to_nat n) (col_iter c))).
Proof. exact @col_imul_spec. Qed.
Example C17_example : res_map col_iter (col_imul (zcol [[1; 2]; [3]]) 2) = Ok [1; 2; 3; 1; 2; 3].
Proof. by vm_compute. Qed.
Print Assumptions C17_column_repeat.
