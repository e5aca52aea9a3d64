(** Concrete executions on which the full column claims fail. *)
From Verif.Spec Require Import Counts.
From Verif.Model Require Import Column ColumnOps ColumnStats Dtype.
From Verif.Proof Require Import ColumnFinal DictLemmas.
Local Open Scope Z_scope.

Lemma reverse_stride_wrong :
  ∃ (c : column Z unit) s, sl_stepv s < 0 ∧ col_getslice c s ≠ Ok (py_getslice (col_iter c) s).
Proof. exists (zcol [[1; 2]; [3; 4]]), (Slice None None (Some (-2))). split; [done|]. by vm_compute. Qed.

Lemma getitem_wrong :
  ∃ (c : column Z unit) i, col_getitem c i ≠ py_getitem (col_iter c) i.
Proof. exists (zcol [[1; 2; 3]]), (-5). by vm_compute. Qed.

Lemma setslice_open_start_wrong :
  ∃ (c : column Z unit) a vs,
    res_map col_iter (col_setslice one_ty id_cast 2 c (Slice (Some a) None None) vs)
    ≠ Ok (py_setslice (col_iter c) (Slice (Some a) None None) vs).
Proof. exists (zcol [[1; 2]; [3]]), (-1), [9]. by vm_compute. Qed.

Lemma setslice_open_stop_wrong :
  ∃ (c : column Z unit) b vs,
    res_map col_iter (col_setslice one_ty id_cast 2 c (Slice None (Some b) None) vs)
    ≠ Ok (py_setslice (col_iter c) (Slice None (Some b) None) vs).
Proof. exists (zcol [[1; 2]; [3]]), 4, [9]. by vm_compute. Qed.

Lemma setslice_ext_wrong :
  ∃ (c : column Z unit) k vs c' l,
    let s := Slice None None (Some k) in
    col_setslice one_ty id_cast 2 c s vs = Ok c' ∧
    py_setslice_ext (col_iter c) s vs = Ok l ∧ col_iter c' ≠ l.
Proof.
  exists (zcol [[1; 2]; [3; 4]]), (-1), [10; 20; 30; 40], (zcol [[1; 2]; [40; 30]]), [40; 30; 20; 10].
  by vm_compute.
Qed.

Lemma setslice_ext_short_accepted :
  ∃ (c : column Z unit) k vs c',
    let s := Slice None None (Some k) in
    col_setslice one_ty id_cast 2 c s vs = Ok c' ∧
    py_setslice_ext (col_iter c) s vs = Err ValueError.
Proof. exists (zcol [[1; 2; 3]]), 2, [10], (zcol [[10; 2]; [3]]). by vm_compute. Qed.

Lemma setslice_ext_truncates :
  ∃ (c : column cell ctype) k vs c',
    let s := Slice None None (Some k) in
    col_setslice cty np_cast 9 c s vs = Ok c' ∧
    py_setslice_ext (col_iter c) s vs ≠ Ok (col_iter c').
Proof.
  exists [new_page cty [CStr "a"; CStr "b"]], 2, [CStr "apple"], [new_page cty [CStr "a"; CStr "b"]].
  by vm_compute.
Qed.

Lemma delitem_wrong :
  ∃ (c : column Z unit) i c', 0 <= i < col_len c ∧ col_delitem c i = Ok c' ∧
    py_delitem (col_iter c) i ≠ Ok (col_iter c').
Proof.
  exists (zcol [[1; 2]; [3; 4; 5; 6]]), 2, [new_page one_ty [1; 2]; MkPage [3; 4; 6] [(tt, 4)]].
  by vm_compute.
Qed.

Lemma delitem_silent :
  ∃ (c : column Z unit) i, col_delitem c i = Ok c ∧ py_delitem (col_iter c) i ≠ Ok (col_iter c).
Proof. exists (zcol [[1; 2; 3]]), (-1). by vm_compute. Qed.

Lemma delslice_wrong :
  ∃ (c : column Z unit) s c', col_delslice one_ty 2 c s = Ok c' ∧ col_iter c' ≠ py_delslice (col_iter c) s.
Proof.
  exists (zcol [[1; 2]; [3; 4]; [5; 6]]), (Slice (Some 2) (Some 3) None),
    (zcol [[4]; [1; 2]; [5; 6]]).
  by vm_compute.
Qed.

Lemma delslice_raises :
  ∃ (c : column Z unit) s, col_delslice one_ty 2 c s = Err ValueError ∧ sl_stepv s = -1.
Proof. exists (zcol [[1; 2; 3]]), (Slice None None (Some (-1))). by vm_compute. Qed.

(** metadata after [del col[i]] *)
Lemma built_del_types_wrong :
  ∃ c : column Z unit, built one_ty id_cast 4 (λ _, True) c ∧
    ¬ counts_exactly (col_types c) (map one_ty (col_iter c)).
Proof.
  exists [MkPage [1; 3] [(tt, 3)]]. split.
  - eapply (built_op one_ty id_cast 4 _ (col_new one_ty 4 [1; 2; 3]) (OpDelItem 1));
      [constructor|done|done|by vm_compute].
  - intros [_ H]. specialize (proj1 (H tt 3)). vm_compute. intros Hc.
    destruct Hc as [_ Hc]; [left|]. discriminate Hc.
Qed.

Lemma built_remove_types_wrong :
  ∃ c : column Z unit,
    built one_ty id_cast 4 (λ o, match o with OpDelItem _ => False | _ => True end) c ∧
    ¬ counts_exactly (col_types c) (map one_ty (col_iter c)).
Proof.
  exists [MkPage [1; 3] [(tt, 3)]]. split.
  - eapply (built_op one_ty id_cast 4 _ (col_new one_ty 4 [1; 2; 3]) (OpRemoveAll Z.eqb [2]));
      [constructor|done|done|by vm_compute].
  - intros [_ H]. specialize (proj1 (H tt 3)). vm_compute. intros Hc.
    destruct Hc as [_ Hc]; [left|]. discriminate Hc.
Qed.

Lemma replace_truncates :
  ∃ (c : column cell ctype) m c', col_replace cty np_cast np_array_of ceqb c m = Ok c' ∧
    col_iter c' ≠ map (subst_value ceqb m) (col_iter c).
Proof.
  exists [new_page cty [CStr "a"; CStr "b"]], [(CStr "a", CStr "apple")],
    [MkPage [CStr "a"; CStr "b"] [(TStr, 2)]].
  by vm_compute.
Qed.

Lemma replace_skips :
  ∃ (c : column cell ctype) m c', col_replace cty np_cast np_array_of ceqb c m = Ok c' ∧
    col_iter c' ≠ map (subst_value ceqb m) (col_iter c).
Proof.
  exists [new_page cty [CInt 1; CStr "b"]], [(CInt 1, CInt 10); (CStr "b", CInt 20)],
    [MkPage [CInt 1; CInt 20] [(TInt, 2)]].
  by vm_compute.
Qed.

Lemma histogram_merges :
  ∃ c : column cell ctype,
    ¬ counts_exactly (col_histogram cty ckey (λ _, true) c) (map (λ x, (cty x, ckey x)) (col_iter c)).
Proof.
  exists [new_page cty [CInt 1; CBool true]]. intros [_ H].
  specialize (proj1 (H (TInt, inl 100) 2)). vm_compute. intros Hc.
  destruct Hc as [_ Hc]; [left|]. discriminate Hc.
Qed.

Lemma count_layout :
  ∃ (c d : column cell ctype) v, col_iter c = col_iter d ∧
    let obj p := bool_decide (dtype_of (pdata p) = DObj) in
    col_count cty ckey obj c v ≠ col_count cty ckey obj d v.
Proof.
  exists [new_page cty [CInt 1; CNone]], [new_page cty [CInt 1]; new_page cty [CNone]], (CBool true).
  by vm_compute.
Qed.

Lemma unique_empty_raises : col_unique cty ckey (λ _, true) ([] : column cell ctype) = Err ValueError.
Proof. done. Qed.

Lemma gather_minus_one :
  ∃ (c : column Z unit), get_by_indices c [-1] = Err IndexError ∧ col_iter c ≠ [].
Proof. exists [MkPage [1] [(tt, 1)]; MkPage [] [(tt, 1)]]. by vm_compute. Qed.
