(** Slices with a step that reach from one page into the next: assigned and deleted. *)
From Verif.Spec Require Import Base PyList.
From Verif.Model Require Import Column.
From Verif.Proof Require Import SliceLemmas ColumnWrite.
From Coq Require Import ZifyBool.
Local Open Scope Z_scope.

Lemma py_range_bounds a b s : 0 < s → Forall (λ i, a <= i < b) (py_range a b s).
Proof.
  intros Hs. apply list.Forall_forall. intros i Hi. apply elem_of_py_range in Hi; [|done]. unfold in_range in Hi. lia.
Qed.

Section proofs.
  Context {A T : Type} `{EqDecision T} (ty : A → T).
  Notation page := (page A T).
  Notation column := (column A T).

  Lemma setitem_update_mid cast ps (pre mid post : column) key vs ks kp st :
    let c := pre ++ mid ++ post in
    let off := zlen (col_iter pre) in
    0 < ps → sl_stepv key ≠ 0 → mid ≠ [] →
    slice_indices key (zlen (col_iter c)) = (ks, kp, st) →
    update_loop ks kp 0 c ([], [], [], None) = (pre, mid, post, Some off) →
    Forall (λ i, off <= i < off + zlen (col_iter mid)) (py_range ks kp st) →
    Forall (λ v, cast mid v = Ok v) vs →
    length vs = length (py_range ks kp st) →
    res_map col_iter (setitem_update ty cast ps c key vs) = py_setslice_ext (col_iter c) key vs.
  Proof.
    intros c off Hps Hst0 Hmid E Hloop Hin Hcast Hlen.
    unfold setitem_update. destruct (Z.eqb_spec (sl_stepv key) 0); [done|].
    rewrite col_len_iter, E. unfold py_setslice_ext, slice_positions. rewrite E, decide_True by done.
    destruct (Z.ltb_spec (zlen (py_range ks kp st)) (zlen vs)); [lia|].
    unfold column in *. rewrite Hloop. destruct mid as [|p0 mid0]; [done|]. set (mid := p0 :: mid0) in *.
    change (concat (map pdata mid)) with (col_iter mid).
    rewrite update_assign_spec.
    2:{ apply list.Forall_forall. intros [i v] Hiv. simpl.
        pose proof (elem_of_zip_l _ _ _ _ Hiv) as Hi. pose proof (elem_of_zip_r _ _ _ _ Hiv) as Hv.
        pose proof (proj1 (list.Forall_forall _ _) Hin i Hi). pose proof (proj1 (list.Forall_forall _ _) Hcast v Hv). auto. }
    cbn [res_map]. f_equal.
    unfold c. rewrite !col_iter_app, col_iter_new_pages, paginate_concat by done.
    rewrite write_all_middle; [done|].
    apply list.Forall_forall. intros [i v] Hiv. simpl.
    pose proof (elem_of_zip_l _ _ _ _ Hiv) as Hi. rewrite list.Forall_forall in Hin. by apply Hin.
  Qed.

  Lemma setitem_update_two_pages cast ps (pre : column) p q post key vs ks kp st :
    let c := pre ++ p :: q :: post in
    let off := zlen (col_iter pre) in
    0 < ps → 0 < sl_stepv key →
    slice_indices key (zlen (col_iter c)) = (ks, kp, st) →
    off <= ks < off + plen p → off + plen p <= kp < off + plen p + plen q →
    Forall (λ v, cast [p; q] v = Ok v) vs →
    length vs = length (py_range ks kp st) →
    res_map col_iter (setitem_update ty cast ps c key vs) = py_setslice_ext (col_iter c) key vs.
  Proof.
    intros c off Hps Hst0 E Hks Hkp Hcast Hlen. subst c.
    assert (0 < st) as Hst. { pose proof E as E'. apply slice_indices_pos in E' as (_ & _ & ->); lia. }
    change (pre ++ p :: q :: post) with (pre ++ [p; q] ++ post) in *.
    apply (setitem_update_mid cast ps pre [p; q] post key vs ks kp st); try done; [lia| |].
    - rewrite update_loop_before by (simpl; lia || done). cbn [fst snd app]. rewrite Z.add_0_l. fold off. unfold plen in *.
      cbn [update_loop]. unfold plen.
      destruct (Z.leb_spec (off + zlen (pdata p)) ks); [lia|]. cbn [andb].
      destruct (Z.leb_spec off ks); [|lia]. destruct (Z.ltb_spec ks (off + zlen (pdata p))); [|lia]. cbn [andb app].
      rewrite (bool_decide_eq_false_2 ([p] = [])) by done. rewrite andb_false_r.
      destruct (Z.leb_spec (off + zlen (pdata p)) ks); [lia|]. cbn [andb].
      destruct (Z.leb_spec (off + zlen (pdata p)) kp); [|lia].
      destruct (Z.ltb_spec kp (off + zlen (pdata p) + zlen (pdata q))); [|lia]. cbn [andb app].
      rewrite update_loop_after; [done|done|lia|lia].
    - eapply list.Forall_impl; [by apply py_range_bounds|]. intros i Hi. cbv beta in Hi.
      rewrite !col_iter_cons, !app_length. unfold plen in *. lia.
  Qed.

  Lemma col_delslice_mid ps (mid post : column) key ks kp st :
    let c := mid ++ post in
    0 < ps → sl_stepv key ≠ 0 → mid ≠ [] →
    slice_indices key (zlen (col_iter c)) = (ks, kp, st) →
    del_loop ks kp 0 c ([], [], [], None) = ([], mid, post, Some 0) →
    Forall (λ i, 0 <= i < zlen (col_iter mid)) (py_range ks kp st) →
    res_map col_iter (col_delslice ty ps c key) = Ok (py_delslice (col_iter c) key).
  Proof.
    intros c Hps Hst0 Hmid E Hloop Hin.
    unfold col_delslice. destruct (Z.eqb_spec (sl_stepv key) 0); [done|].
    rewrite col_len_iter, E. unfold py_delslice, slice_positions. rewrite E.
    unfold column in *. rewrite Hloop. destruct mid as [|p0 mid0]; [done|]. set (mid := p0 :: mid0) in *.
    change (concat (map pdata mid)) with (col_iter mid). set (l := col_iter mid) in *.
    assert (Hpr : match py_range ks kp st with
                  | [] => Ok l
                  | _ :: _ => np_delete l (map (λ i, i - 0) (py_range ks kp st))
                  end = Ok (filter_pos (λ i, bool_decide (i ∉ py_range ks kp st)) 0 l)).
    { assert (Hd : np_delete l (map (λ i, i - 0) (py_range ks kp st))
                   = Ok (filter_pos (λ i, bool_decide (i ∉ py_range ks kp st)) 0 l)).
      { unfold np_delete.
        rewrite (map_ext (λ i, i - 0) id), map_id by (intros; unfold id; lia).
        assert (forallb (λ i, (- zlen l <=? i) && (i <? zlen l)) (py_range ks kp st) = true) as ->.
        { apply forallb_forall. intros i Hi%elem_of_list_In.
          rewrite list.Forall_forall in Hin. apply Hin in Hi. lia. }
        f_equal. apply filter_pos_ext. intros i _. f_equal.
        rewrite (map_ext_in _ id), map_id; [done|].
        intros j Hj%elem_of_list_In. rewrite list.Forall_forall in Hin. apply Hin in Hj.
        destruct (Z.ltb_spec j 0); [lia|done]. }
      destruct (py_range ks kp st) eqn:Er; [|done].
      rewrite filter_pos_true; [done|]. intros. apply bool_decide_eq_true. apply not_elem_of_nil. }
    rewrite Hpr. cbn [res_map app]. f_equal.
    rewrite !col_iter_app, col_iter_new_pages, paginate_concat by done.
    unfold c. rewrite col_iter_app. fold l. rewrite filter_pos_app. f_equal.
    symmetry. apply filter_pos_true. intros i Hi. apply bool_decide_eq_true.
    intros Hel. rewrite list.Forall_forall in Hin. apply Hin in Hel. lia.
  Qed.

  Lemma col_delslice_two_pages ps p q (post : column) key ks kp st :
    let c := p :: q :: post in
    0 < ps → 0 < sl_stepv key →
    slice_indices key (zlen (col_iter c)) = (ks, kp, st) →
    0 <= ks < plen p → plen p <= kp <= plen p + plen q → (kp < plen p + plen q ∨ post = []) →
    res_map col_iter (col_delslice ty ps c key) = Ok (py_delslice (col_iter c) key).
  Proof.
    intros c Hps Hst0 E Hks Hkp Hpost.
    assert (0 < st) as Hst. { pose proof E as E'. apply slice_indices_pos in E' as (_ & _ & ->); lia. }
    apply (col_delslice_mid ps [p; q] post key ks kp st); try done; [lia| |].
    - cbn [app del_loop]. unfold plen in *. rewrite Z.add_0_l.
      destruct (Z.ltb_spec kp 0); [lia|]. destruct (Z.leb_spec 0 ks); [|lia].
      destruct (Z.ltb_spec ks (zlen (pdata p))); [|lia]. cbn [andb app].
      rewrite (bool_decide_eq_false_2 ([p] = [])) by done. rewrite andb_false_r.
      destruct (Z.leb_spec (zlen (pdata p)) ks); [lia|]. cbn [andb].
      destruct (Z.leb_spec (zlen (pdata p)) kp); [|lia].
      destruct (Z.leb_spec kp (zlen (pdata p) + zlen (pdata q))); [|lia]. cbn [andb app].
      destruct Hpost as [Hpost| ->]; [|done].
      rewrite del_loop_after; [done|done|lia|lia].
    - eapply list.Forall_impl; [by apply py_range_bounds|]. intros i Hi. cbv beta in Hi.
      rewrite !col_iter_cons, !app_length. unfold plen in *. lia.
  Qed.
End proofs.
