(** Writing to columns: single elements, slices, deletion. *)
From Verif.Spec Require Import PyList.
From Verif.Model Require Import Column.
From Verif.Proof Require Export ColumnRead.
From Coq Require Import ZifyBool.
Local Open Scope Z_scope.

Lemma write_all_length {A} (l : list A) ps : length (write_all l ps) = length l.
Proof.
  unfold write_all. revert l. induction ps as [|p ps IH]; intros l; simpl; [done|].
  by rewrite IH, insert_length.
Qed.

Lemma write_all_cons {A} (l : list A) p ps :
  write_all l (p :: ps) = write_all (<[Z.to_nat p.1 := p.2]> l) ps.
Proof. done. Qed.

(** Writing inside a middle part. *)
Lemma write_all_middle {A} (pre mid post : list A) ps :
  Forall (λ q : Z * A, zlen pre <= q.1 < zlen pre + zlen mid) ps →
  write_all (pre ++ mid ++ post) ps
  = pre ++ write_all mid (map (λ q, (q.1 - zlen pre, q.2)) ps) ++ post.
Proof.
  revert mid. induction ps as [|[i v] ps IH]; intros mid H; [done|].
  inversion H as [|?? H1 H2]; subst. simpl in H1. cbn [map fst snd].
  rewrite !write_all_cons. cbn [fst snd].
  rewrite insert_app_r_alt by lia. rewrite insert_app_l by lia.
  rewrite IH.
  - do 4 f_equal. lia.
  - rewrite insert_length. done.
Qed.

Section proofs.
  Context {A T : Type} `{EqDecision T} (ty : A → T).
  Implicit Types (c : column A T) (p : page A T).

  (** ** find_page *)
  Lemma find_page_Some key off before c bf st p af :
    find_page key off before c = Some (bf, st, p, af) →
    ∃ pre, bf = before ++ pre ∧ c = pre ++ p :: af ∧
           st = off + zlen (col_iter pre) ∧ st <= key < st + plen p.
  Proof.
    revert off before. induction c as [|q c IH]; intros off before; simpl; [done|].
    destruct ((off <=? key) && (key <? off + plen q)) eqn:E.
    - intros [= <- <- <- <-]. exists []. rewrite app_nil_r. simpl. split_and!; try done; lia.
    - intros H. apply IH in H as (pre & -> & -> & -> & Hk).
      exists (q :: pre). rewrite <- app_assoc. split_and!; try done.
      + rewrite col_iter_cons, app_length. unfold plen. lia.
      + lia.
      + lia.
  Qed.

  Lemma find_page_None key off before c :
    find_page key off before c = None → ¬ (off <= key < off + zlen (col_iter c)).
  Proof.
    revert off before. induction c as [|q c IH]; intros off before; simpl; [lia|].
    destruct ((off <=? key) && (key <? off + plen q)) eqn:E; [done|].
    intros H. apply IH in H. rewrite col_iter_cons, app_length. unfold plen in *. lia.
  Qed.

  Lemma find_page_outside key off before c :
    ¬ (off <= key < off + zlen (col_iter c)) → find_page key off before c = None.
  Proof.
    revert off before. induction c as [|q c IH]; intros off before; simpl; [done|].
    rewrite col_iter_cons, app_length. intros H.
    destruct ((off <=? key) && (key <? off + plen q)) eqn:E.
    - unfold plen in *. lia.
    - apply IH. unfold plen in *. lia.
  Qed.

  (** ** col[i] = v *)
  Lemma col_setitem_spec c i v :
    match col_setitem ty c i v with
    | Ok c' => py_setitem (col_iter c) i v = Ok (col_iter c') ∧ map plen c' = map plen c
    | Err e => py_setitem (col_iter c) i v = Err e
    end.
  Proof.
    unfold col_setitem, py_setitem. rewrite col_len_iter. set (l := col_iter c).
    replace (zlen l + i) with (i + zlen l) by lia.
    set (k := if i <? 0 then i + zlen l else i).
    destruct ((0 <=? k) && (k <? zlen l)) eqn:E; cbn [negb].
    2:{ rewrite bool_decide_eq_false_2; [done|]. lia. }
    assert (Hk : 0 <= k < zlen l) by lia. rewrite bool_decide_eq_true_2 by done.
    destruct (find_page k 0 [] c) as [[[[bf st] p] af]|] eqn:F.
    2:{ apply find_page_None in F. fold l in F. lia. }
    apply find_page_Some in F as (pre & -> & -> & -> & Hkp). rewrite Z.add_0_l in *. unfold plen in Hkp.
    destruct (pdata p !! Z.to_nat (k - zlen (col_iter pre))) as [old|] eqn:Hold.
    2:{ apply lookup_ge_None in Hold. lia. }
    cbn [app]. split.
    - f_equal. unfold l. rewrite !col_iter_app, !col_iter_cons. simpl.
      rewrite insert_app_r_alt by lia. rewrite insert_app_l by lia.
      do 3 f_equal. lia.
    - rewrite !map_app. simpl. f_equal. f_equal. unfold plen. simpl. by rewrite insert_length.
  Qed.

  (** ** slices *)
  Lemma replace_all_spec ps c vs :
    0 < ps → col_iter (setitem_replace_all ty ps c vs) = vs.
  Proof. intros. unfold setitem_replace_all. by rewrite col_extend_iter. Qed.

  Lemma setitem_extend_spec ps c a vs :
    0 < ps → 0 <= a →
    col_iter (setitem_extend ty ps c a vs) = take (Z.to_nat a) (col_iter c) ++ vs.
  Proof.
    intros Hps Ha. unfold setitem_extend.
    destruct (find_page a 0 [] c) as [[[[bf st] p] af]|] eqn:F.
    - apply find_page_Some in F as (pre & -> & -> & -> & Hkp). simpl.
      rewrite col_extend_iter by done. unfold arr_upto. rewrite getslice_upto by lia.
      rewrite col_iter_app, col_iter_cons, app_assoc. f_equal.
      rewrite take_app_ge by lia. f_equal. unfold plen in *. rewrite take_app_le by lia. f_equal. lia.
    - apply find_page_None in F. rewrite col_iter_app, col_iter_cons. simpl. rewrite app_nil_r.
      rewrite take_ge by lia. done.
  Qed.

  (** What the code does for a negative start. *)
  Lemma setitem_extend_neg ps c a vs :
    a < 0 → col_iter (setitem_extend ty ps c a vs) = col_iter c ++ vs.
  Proof.
    intros Ha. unfold setitem_extend. rewrite find_page_outside by lia.
    rewrite col_iter_app, col_iter_cons. simpl. by rewrite app_nil_r.
  Qed.

  Lemma setitem_prextend_in ps c b vs k :
    0 < ps → b ≠ zlen (col_iter c) →
    k = (if b <? 0 then Z.max (b + zlen (col_iter c)) 0 else b) →
    k < zlen (col_iter c) →
    col_iter (setitem_prextend ty ps c b vs) = vs ++ drop (Z.to_nat k) (col_iter c).
  Proof.
    intros Hps Hb Hk Hlt. unfold setitem_prextend. rewrite col_len_iter.
    destruct (Z.eqb_spec b (zlen (col_iter c))); [done|].
    assert (Ek : (if b <? 0
                  then let '(_, stop, _) := slice_indices (Slice None (Some b) None) (zlen (col_iter c)) in stop
                  else b) = k).
    { subst k. unfold slice_indices, sl_stepv. simpl. destruct (Z.ltb_spec b 0); lia. }
    rewrite Ek.
    destruct (find_page k 0 [] c) as [[[[bf st] p] af]|] eqn:F.
    2:{ apply find_page_None in F. destruct (Z.ltb_spec b 0); lia. }
    apply find_page_Some in F as (pre & -> & -> & -> & Hkp). simpl.
    rewrite col_iter_app, col_extend_iter by done. simpl.
    unfold arr_from. rewrite getslice_from by lia.
    rewrite col_iter_app, col_iter_cons, <- app_assoc. f_equal.
    rewrite drop_app_ge by lia. unfold plen in *. rewrite drop_app_le by lia. do 2 f_equal. lia.
  Qed.

  Lemma setitem_prextend_len ps c vs :
    0 < ps → col_iter (setitem_prextend ty ps c (zlen (col_iter c)) vs) = vs.
  Proof.
    intros Hps. unfold setitem_prextend. rewrite col_len_iter, Z.eqb_refl.
    by rewrite col_extend_iter.
  Qed.

  (** What the code does for a stop beyond the end: nothing. *)
  Lemma setitem_prextend_beyond ps c b vs :
    zlen (col_iter c) < b → setitem_prextend ty ps c b vs = c.
  Proof.
    intros Hb. unfold setitem_prextend. rewrite col_len_iter.
    destruct (Z.eqb_spec b (zlen (col_iter c))); [lia|].
    destruct (Z.ltb_spec b 0); [lia|]. rewrite find_page_outside by lia. done.
  Qed.

  Lemma insert_loop_spec ks kp c pre acc uh head tail ut :
    ks <= kp →
    let off := zlen (col_iter pre) in
    0 <= ks →
    acc = (uh, head, tail, ut) →
    col_iter uh ++ head = take (Z.to_nat ks) (col_iter pre) →
    (off <= ks → head = []) →
    tail ++ col_iter ut = drop (Z.to_nat kp) (col_iter pre) →
    (off <= kp → tail = [] ∧ ut = []) →
    match insert_loop ks kp off c acc with
    | (uh', head', tail', ut') =>
        col_iter uh' ++ head' = take (Z.to_nat ks) (col_iter (pre ++ c)) ∧
        tail' ++ col_iter ut' = drop (Z.to_nat kp) (col_iter (pre ++ c))
    end.
  Proof.
    intros Hks off Hks0. subst off. revert pre acc uh head tail ut.
    induction c as [|p c IH]; intros pre acc uh head tail ut -> Hh Hh0 Ht Ht0.
    { simpl. by rewrite app_nil_r. }
    assert (Hoff : zlen (col_iter (pre ++ [p])) = zlen (col_iter pre) + plen p).
    { rewrite col_iter_app, app_length, col_iter_cons. simpl. rewrite app_nil_r. unfold plen. lia. }
    cbn [insert_loop].
    replace (pre ++ p :: c) with ((pre ++ [p]) ++ c) by (by rewrite <- app_assoc).
    rewrite <- Hoff. eapply IH; [reflexivity|..]; rewrite ?Hoff.
    - rewrite (col_iter_app pre [p]), col_iter_cons. simpl. rewrite app_nil_r.
      set (off := zlen (col_iter pre)) in *. unfold plen in *.
      destruct (Z.leb_spec (off + zlen (pdata p)) ks).
      + destruct (Z.leb_spec off ks); [|lia]. destruct (Z.ltb_spec ks (off + zlen (pdata p))); [lia|].
        simpl. rewrite Hh0 in * by lia. rewrite app_nil_r in *.
        rewrite take_ge in Hh by lia. rewrite take_ge by (rewrite app_length; lia).
        rewrite col_iter_app, Hh, col_iter_cons. simpl. by rewrite app_nil_r.
      + destruct (Z.leb_spec off ks).
        * destruct (Z.ltb_spec ks (off + zlen (pdata p))); [|lia]. simpl.
          rewrite Hh0 in * by lia. rewrite app_nil_r in *.
          rewrite take_ge in Hh by lia. rewrite Hh.
          unfold arr_upto. rewrite getslice_upto by lia.
          rewrite take_app_ge by lia. do 2 f_equal. lia.
        * simpl. rewrite Hh, take_app_le by lia. done.
    - intros Hle. unfold plen in *.
      destruct (Z.leb_spec (zlen (col_iter pre)) ks), (Z.ltb_spec ks (zlen (col_iter pre) + zlen (pdata p))); simpl; try lia.
      apply Hh0. lia.
    - rewrite (col_iter_app pre [p]), col_iter_cons. simpl. rewrite app_nil_r.
      set (off := zlen (col_iter pre)) in *. unfold plen in *.
      destruct (Z.ltb_spec kp off).
      + destruct (Z.leb_spec off kp); [lia|]. simpl.
        rewrite col_iter_app, col_iter_cons. simpl. rewrite app_nil_r, app_assoc, Ht.
        rewrite drop_app_le by lia. done.
      + destruct (Z.leb_spec off kp); [|lia]. simpl. destruct Ht0 as [-> ->]; [lia|].
        simpl. destruct (Z.ltb_spec kp (off + zlen (pdata p))).
        * rewrite app_nil_r. unfold arr_from. rewrite getslice_from by lia.
          rewrite drop_app_ge by lia. f_equal. lia.
        * rewrite drop_ge; [done|]. rewrite app_length. lia.
    - intros Hle. unfold plen in *.
      destruct Ht0 as [-> ->]; [lia|].
      destruct (Z.ltb_spec kp (zlen (col_iter pre))); [lia|].
      destruct (Z.ltb_spec kp (zlen (col_iter pre) + zlen (pdata p))); [lia|].
      rewrite andb_false_r. done.
  Qed.

  Lemma setitem_insert_spec ps c key vs :
    0 < ps → sl_stepv key = 1 →
    col_iter (setitem_insert ty ps c key vs) = py_setslice (col_iter c) key vs.
  Proof.
    intros Hps Hstep. unfold setitem_insert, py_setslice. rewrite col_len_iter.
    destruct (slice_indices key (zlen (col_iter c))) as [[ks kp] st] eqn:E.
    apply slice_indices_pos in E as (Hks & Hkp & _); [|lia|lia].
    replace (if kp <? ks then ks else kp) with (Z.max ks kp) by (destruct (Z.ltb_spec kp ks); lia).
    pose proof (insert_loop_spec ks (Z.max ks kp) c [] ([], [], [], []) [] [] [] []) as H.
    cbn [length app] in H. change (@col_iter A T []) with (@nil A) in H. cbn [length app] in H.
    specialize (H ltac:(lia) ltac:(lia) eq_refl).
    rewrite take_nil, drop_nil in H.
    specialize (H eq_refl ltac:(done) eq_refl ltac:(done)).
    change (Z.of_nat 0) with 0 in H.
    destruct (insert_loop ks (Z.max ks kp) 0 c ([], [], [], [])) as [[[uh head] tail] ut].
    destruct H as [H1 H2].
    rewrite !col_iter_app, col_iter_new_pages, paginate_concat by done.
    rewrite <- !app_assoc, H2, app_assoc, H1. done.
  Qed.

  (** ** col[a:b:k] = vs *)
  Lemma update_assign_spec conv (new : list A) s qs :
    Forall (λ q : Z * A, s <= q.1 < s + zlen new ∧ conv q.2 = Ok q.2) qs →
    update_assign conv new (Some s) qs = Ok (write_all new (map (λ q, (q.1 - s, q.2)) qs)).
  Proof.
    revert new. induction qs as [|[i v] qs IH]; intros new H; [done|].
    inversion H as [|?? [H1 Hv] H2]; subst. cbn [update_assign map fst snd]. cbn [fst snd] in H1, Hv.
    unfold np_assign. rewrite Hv. cbn [res_bind]. unfold py_setitem.
    destruct (Z.ltb_spec (i - s) 0); [lia|].
    rewrite bool_decide_eq_true_2 by lia. cbn [res_bind].
    rewrite write_all_cons. cbn [fst snd]. apply IH.
    rewrite insert_length. done.
  Qed.

  (** The page loop when the slice starts in page [p] and no other page is hit. *)
  Lemma update_loop_before ks kp c off acc post :
    off + zlen (col_iter c) <= ks →
    acc.1.1.2 = [] →
    update_loop ks kp off (c ++ post) acc
    = update_loop ks kp (off + zlen (col_iter c)) post
        (acc.1.1.1 ++ c, [], acc.1.2, acc.2).
  Proof.
    revert off acc. induction c as [|p c IH]; intros off [[[h ch] t] so] Hle Hch; simpl in *.
    { rewrite app_nil_r, Hch. f_equal. lia. }
    rewrite col_iter_cons, app_length in Hle |- *. fold (plen p) in *. subst ch.
    unfold plen in *.
    destruct (Z.leb_spec (off + zlen (pdata p)) ks); [|lia].
    rewrite bool_decide_eq_true_2 by done. simpl.
    rewrite IH by (simpl; lia || done). simpl. rewrite <- app_assoc. simpl.
    f_equal. lia.
  Qed.

  Lemma update_loop_after ks kp c off h ch t so :
    ch ≠ [] →
    ks < off → kp < off ∨ off + zlen (col_iter c) <= kp →
    update_loop ks kp off c (h, ch, t, so) = (h, ch, t ++ c, so).
  Proof.
    revert off t. induction c as [|p c IH]; intros off t Hch Hks Hkp; simpl.
    { by rewrite app_nil_r. }
    rewrite col_iter_cons, app_length in Hkp.
    rewrite bool_decide_eq_false_2 by done. rewrite andb_false_r.
    destruct (Z.leb_spec off ks); [lia|]. simpl. unfold plen.
    assert ((off <=? kp) && (kp <? off + zlen (pdata p)) = false) as -> by lia.
    rewrite IH; [by rewrite <- app_assoc| done | lia | lia].
  Qed.

  Lemma setitem_update_in_page cast ps pre p post key vs ks kp st :
    let c := pre ++ p :: post in
    let off := zlen (col_iter pre) in
    0 < ps → sl_stepv key ≠ 0 →
    slice_indices key (zlen (col_iter c)) = (ks, kp, st) →
    off <= ks < off + plen p →
    (kp < off + plen p ∨ post = []) →
    Forall (λ i, off <= i < off + plen p) (py_range ks kp st) →
    Forall (λ v, cast [p] v = Ok v) vs →
    length vs = length (py_range ks kp st) →
    res_map col_iter (setitem_update ty cast ps c key vs)
    = py_setslice_ext (col_iter c) key vs.
  Proof.
    intros c off Hps Hst0 E Hks Hkp Hin Hcast Hlen.
    unfold setitem_update. destruct (Z.eqb_spec (sl_stepv key) 0); [done|].
    rewrite col_len_iter, E.
    unfold py_setslice_ext, slice_positions. rewrite E, decide_True by done.
    destruct (Z.ltb_spec (zlen (py_range ks kp st)) (zlen vs)); [lia|].
    unfold c. rewrite update_loop_before by (simpl; lia || done). cbn [fst snd app].
    rewrite Z.add_0_l. fold off.
    assert (Hloop : update_loop ks kp off (p :: post) (pre, [], [], None)
                    = (pre, [p], post, Some off)).
    { simpl. destruct (Z.leb_spec (off + plen p) ks); [lia|]. simpl.
      destruct (Z.leb_spec off ks); [|lia]. destruct (Z.ltb_spec ks (off + plen p)); [|lia]. simpl.
      destruct Hkp as [Hkp| ->]; [|done].
      rewrite update_loop_after; [done|done|lia|lia]. }
    unfold column in *; rewrite Hloop. cbn [map concat]. rewrite app_nil_r.
    rewrite update_assign_spec.
    2:{ apply list.Forall_forall. intros [i v] Hiv. simpl.
        pose proof (elem_of_zip_l _ _ _ _ Hiv) as Hi.
        pose proof (elem_of_zip_r _ _ _ _ Hiv) as Hv.
        pose proof (proj1 (list.Forall_forall _ _) Hin i Hi) as Hi'.
        pose proof (proj1 (list.Forall_forall _ _) Hcast v Hv) as Hv'.
        unfold plen in Hi'. simpl in Hi', Hv'. auto. }
    cbn [res_map]. f_equal.
    rewrite !col_iter_app, col_iter_cons, col_iter_new_pages, paginate_concat by done.
    rewrite write_all_middle; [done|].
    apply list.Forall_forall. intros [i v] Hiv. simpl.
    pose proof (elem_of_zip_l _ _ _ _ Hiv) as Hi.
    rewrite list.Forall_forall in Hin. unfold plen in Hin. by apply Hin.
  Qed.

  (** ** del col[i] *)
  Lemma del_by_int_loop_outside key off c :
    key < off → del_by_int_loop key off c = Ok c.
  Proof.
    revert off. induction c as [|p c IH]; intros off Hk; simpl; [done|].
    destruct (Z.leb_spec off key); [lia|]. simpl. rewrite IH by (unfold plen; lia). done.
  Qed.

  Lemma del_first_page p c i :
    0 <= i < plen p →
    res_map col_iter (col_delitem (p :: c) i) = py_delitem (col_iter (p :: c)) i.
  Proof.
    intros Hi. unfold col_delitem. cbn [del_by_int_loop]. rewrite Z.add_0_l.
    destruct (Z.leb_spec 0 i); [|lia]. destruct (Z.ltb_spec i (plen p)); [|lia]. cbn [andb].
    unfold np_delete. simpl. unfold plen in Hi.
    assert ((- zlen (pdata p) <=? i) && (i <? zlen (pdata p)) && true = true) as -> by lia.
    destruct (Z.ltb_spec i 0); [lia|]. cbn [res_bind].
    rewrite del_by_int_loop_outside by (unfold plen; lia). cbn [res_map].
    rewrite !col_iter_cons. unfold py_delitem. destruct (Z.ltb_spec i 0); [lia|].
    rewrite bool_decide_eq_true_2 by (rewrite app_length; lia). f_equal. simpl.
    rewrite take_app_le, drop_app_le, app_assoc by lia. f_equal.
    replace (filter_pos (λ i0, bool_decide (i0 ∉ [i])) 0 (pdata p))
      with (filter_pos (λ j, j <? i) 0 (take (Z.to_nat i) (pdata p)) ++
            filter_pos (λ j, i + 1 <=? j) i (drop (Z.to_nat i) (pdata p))).
    - rewrite filter_pos_take, filter_pos_drop, take_take, drop_drop. rewrite Z.sub_0_r, Nat.min_id. replace (Z.to_nat i + Z.to_nat (i + 1 - i))%nat with (S (Z.to_nat i)) by lia. done.
    - rewrite <- (take_drop (Z.to_nat i) (pdata p)) at 3. rewrite filter_pos_app. f_equal.
      + apply filter_pos_ext. intros j Hj. rewrite take_length in Hj.
        destruct (Z.ltb_spec j i); [|lia].
        symmetry. apply bool_decide_eq_true. rewrite elem_of_list_singleton. lia.
      + rewrite take_length. replace (0 + Z.of_nat (Z.to_nat i `min` length (pdata p))) with i by lia.
        apply filter_pos_ext. intros j Hj.
        destruct (Z.leb_spec (i + 1) j).
        * symmetry. apply bool_decide_eq_true. rewrite elem_of_list_singleton. lia.
        * symmetry. apply bool_decide_eq_false. rewrite elem_of_list_singleton. lia.
  Qed.

  (** ** del col[a:b:k] *)
  Lemma del_loop_after ks kp c off h ch t so :
    ch ≠ [] → ks < off → kp < off →
    del_loop ks kp off c (h, ch, t, so) = (h, ch, t ++ c, so).
  Proof.
    revert off t. induction c as [|p c IH]; intros off t Hch Hks Hkp; simpl.
    { by rewrite app_nil_r. }
    rewrite bool_decide_eq_false_2 by done. rewrite andb_false_r.
    destruct (Z.leb_spec off ks); [lia|]. destruct (Z.leb_spec off kp); [lia|]. simpl.
    rewrite IH by (unfold plen; lia || done). by rewrite <- app_assoc.
  Qed.

  Lemma col_delslice_first_page ps p post key ks kp st :
    let c := p :: post in
    0 < ps → sl_stepv key ≠ 0 →
    slice_indices key (zlen (col_iter c)) = (ks, kp, st) →
    0 <= ks < plen p → 0 <= kp →
    (kp < plen p ∨ post = []) →
    Forall (λ i, 0 <= i < plen p) (py_range ks kp st) →
    res_map col_iter (col_delslice ty ps c key) = Ok (py_delslice (col_iter c) key).
  Proof.
    intros c Hps Hst0 E Hks Hkp0 Hkp Hin.
    unfold col_delslice. destruct (Z.eqb_spec (sl_stepv key) 0); [done|].
    rewrite col_len_iter, E.
    unfold py_delslice, slice_positions. rewrite E.
    assert (Hloop : del_loop ks kp 0 c ([], [], [], None) = ([], [p], post, Some 0)).
    { unfold c. cbn [del_loop]. rewrite Z.add_0_l.
      destruct (Z.ltb_spec kp 0); [lia|]. destruct (Z.leb_spec 0 ks); [|lia].
      destruct (Z.ltb_spec ks (plen p)); [|lia]. cbn [andb app].
      destruct Hkp as [Hkp| ->]; [|done].
      rewrite del_loop_after; [done|done|lia|lia]. }
    rewrite Hloop. cbn [map concat]. rewrite app_nil_r.
    assert (Hpr : match py_range ks kp st with
                  | [] => Ok (pdata p)
                  | _ :: _ => np_delete (pdata p) (map (λ i, i - 0) (py_range ks kp st))
                  end = Ok (filter_pos (λ i, bool_decide (i ∉ py_range ks kp st)) 0 (pdata p))).
    { assert (Hd : np_delete (pdata p) (map (λ i, i - 0) (py_range ks kp st))
                   = Ok (filter_pos (λ i, bool_decide (i ∉ py_range ks kp st)) 0 (pdata p))).
      { unfold np_delete.
        rewrite (map_ext (λ i, i - 0) id), map_id by (intros; unfold id; lia).
        assert (forallb (λ i, (- zlen (pdata p) <=? i) && (i <? zlen (pdata p))) (py_range ks kp st)
                = true) as ->.
        { apply forallb_forall. intros i Hi%elem_of_list_In.
          rewrite list.Forall_forall in Hin. apply Hin in Hi. unfold plen in Hi. lia. }
        f_equal. apply filter_pos_ext. intros i _. f_equal.
        rewrite (map_ext_in _ id), map_id; [done|].
        intros j Hj%elem_of_list_In. rewrite list.Forall_forall in Hin. apply Hin in Hj.
        destruct (Z.ltb_spec j 0); [lia|done]. }
      destruct (py_range ks kp st) eqn:Er; [|done].
      rewrite filter_pos_true; [done|]. intros. apply bool_decide_eq_true. apply not_elem_of_nil. }
    rewrite Hpr. cbn [res_map app]. f_equal.
    rewrite !col_iter_app, col_iter_new_pages, paginate_concat by done.
    unfold c. rewrite col_iter_cons, filter_pos_app. f_equal.
    symmetry. apply filter_pos_true. intros i Hi. apply bool_decide_eq_true.
    intros Hel. rewrite list.Forall_forall in Hin. apply Hin in Hel. unfold plen in Hel. lia.
  Qed.
End proofs.
