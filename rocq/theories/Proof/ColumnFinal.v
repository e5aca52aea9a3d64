(** The column properties in the form in which Props/Columns.v states them. *)
From Verif.Spec Require Import Counts.
From Verif.Model Require Import Column ColumnOps ColumnStats.
From Verif.Proof Require Import DictLemmas SliceLemmas ColumnRead ColumnWrite ColumnMisc ColumnStatsProofs.
From Coq Require Import ZifyBool.
Local Open Scope Z_scope.

Section final.
  Context {A T : Type} `{EqDecision T} (ty : A → T).
  Implicit Types (c d : column A T) (p : page A T).

  Definition put_in (ps : Z) c (q : list A + column A T) : column A T :=
    match q with inl vs => col_extend ty ps c vs | inr d => col_extend_col c d end.

  Lemma store_all ps vs0 (puts : list (list A + column A T)) :
    0 < ps →
    let c := fold_left (λ c q, match q with
                               | inl vs => col_extend ty ps c vs
                               | inr d => col_extend_col c d
                               end) puts (col_new ty ps vs0) in
    let stored := vs0 ++ concat (map (λ q, match q with inl vs => vs | inr d => col_iter d end) puts) in
    col_iter c = stored ∧
    col_getslice c (Slice None None None) = Ok stored ∧
    col_len c = zlen stored ∧
    (Forall (λ q, match q with inl _ => True | inr d => Forall (λ p, 1 <= plen p <= ps) d end) puts →
     Forall (λ p, 1 <= plen p <= ps) c).
  Proof.
    intros Hps. cbv zeta. fold (put_in ps).
    assert (Hnew : ∀ vs, Forall (λ p : page A T, 1 <= plen p <= ps) (map (new_page ty) (paginate ps vs))).
    { intros vs. apply Forall_map. eapply list.Forall_impl; [apply (paginate_bounds ps vs Hps)|done]. }
    assert (H : ∀ c, col_iter (fold_left (put_in ps) puts c)
        = col_iter c ++ concat (map (λ q, match q with inl vs => vs | inr d => col_iter d end) puts) ∧
       (Forall (λ q, match q with inl _ => True | inr d => Forall (λ p, 1 <= plen p <= ps) d end) puts →
        Forall (λ p, 1 <= plen p <= ps) c →
        Forall (λ p, 1 <= plen p <= ps) (fold_left (put_in ps) puts c))).
    { induction puts as [|q puts IH]; intros c; simpl.
      { by rewrite app_nil_r. }
      destruct (IH (put_in ps c q)) as [-> IHb]. split.
      - rewrite app_assoc. f_equal. destruct q as [vs|d]; simpl.
        + by apply col_extend_iter.
        + apply col_iter_app.
      - intros [Hq Hputs]%list.Forall_cons Hc. apply IHb; [done|]. destruct q as [vs|d]; simpl.
        + apply list.Forall_app. split; [done|apply Hnew].
        + by apply list.Forall_app. }
    destruct (H (col_new ty ps vs0)) as [Hi Hb].
    change (λ c q, match q with inl vs => col_extend ty ps c vs | inr d => col_extend_col c d end)
      with (put_in ps).
    unfold col_new in *. rewrite col_extend_iter in Hi by done.
    change (@col_iter A T []) with (@nil A) in Hi. simpl in Hi.
    split; [done|]. split; [|split].
    - rewrite col_getslice_pos by (unfold sl_stepv; simpl; lia). rewrite getslice_all. by f_equal.
    - rewrite col_len_iter. unfold column in *. by rewrite Hi.
    - intros Hq. apply Hb; [done|apply Hnew].
  Qed.

  Lemma getitem_valid c i :
    - zlen (col_iter c) - 1 <= i → col_getitem c i = py_getitem (col_iter c) i.
  Proof.
    intros Hi. rewrite col_getitem_spec. unfold py_getitem.
    destruct (Z.ltb_spec i 0).
    - destruct (Z.ltb_spec (zlen (col_iter c) + i) (-1)); [lia|]. by rewrite Z.add_comm.
    - done.
  Qed.

  Lemma setslice_closed cast ps c key vs :
    0 < ps → sl_stepv key = 1 → (is_Some (sl_start key) ↔ is_Some (sl_stop key)) →
    res_map col_iter (col_setslice ty cast ps c key vs) = Ok (py_setslice (col_iter c) key vs).
  Proof.
    intros Hps Hst Hss. unfold col_setslice.
    assert (match sl_step key with Some k => k =? 1 | None => true end = true) as ->.
    { unfold sl_stepv in Hst. destruct (sl_step key); simpl in *; lia. }
    destruct key as [[a|] [b|] st]; simpl in *.
    - f_equal. by apply setitem_insert_spec.
    - exfalso. destruct (proj1 Hss) as [? ?]; [by eexists|done].
    - exfalso. destruct (proj2 Hss) as [? ?]; [by eexists|done].
    - f_equal. rewrite replace_all_spec by done. unfold py_setslice, slice_indices. simpl.
      rewrite Hst. simpl. rewrite Z.max_r by lia. rewrite drop_ge by lia. by rewrite app_nil_r.
  Qed.

  Lemma setslice_open_start cast ps c a st vs :
    0 < ps → (st = None ∨ st = Some 1) → 0 <= a →
    res_map col_iter (col_setslice ty cast ps c (Slice (Some a) None st) vs)
    = Ok (py_setslice (col_iter c) (Slice (Some a) None st) vs).
  Proof.
    intros Hps Hst Ha. unfold col_setslice. simpl.
    assert (match st with Some k => k =? 1 | None => true end = true) as -> by (by destruct Hst as [->| ->]).
    simpl. f_equal. rewrite setitem_extend_spec by done. unfold py_setslice, slice_indices, sl_stepv. simpl.
    assert (default 1 st = 1) as -> by (by destruct Hst as [->| ->]). simpl.
    destruct (Z.ltb_spec a 0); [lia|].
    rewrite (drop_ge (col_iter c)) by lia. rewrite app_nil_r. f_equal.
    destruct (Z.le_gt_cases a (zlen (col_iter c))).
    - by rewrite Z.min_l.
    - rewrite Z.min_r by lia. rewrite !take_ge by lia. done.
  Qed.

  Lemma setslice_open_stop cast ps c b st vs :
    0 < ps → (st = None ∨ st = Some 1) → b <= zlen (col_iter c) →
    (b < 0 → col_iter c ≠ []) →
    res_map col_iter (col_setslice ty cast ps c (Slice None (Some b) st) vs)
    = Ok (py_setslice (col_iter c) (Slice None (Some b) st) vs).
  Proof.
    intros Hps Hst Hb Hne. unfold col_setslice. simpl.
    assert (match st with Some k => k =? 1 | None => true end = true) as -> by (by destruct Hst as [->| ->]).
    simpl. f_equal. unfold py_setslice, slice_indices, sl_stepv. simpl.
    assert (default 1 st = 1) as -> by (by destruct Hst as [->| ->]). simpl.
    destruct (decide (b = zlen (col_iter c))) as [->|Hbl].
    - rewrite setitem_prextend_len by done. destruct (Z.ltb_spec (zlen (col_iter c)) 0); [lia|].
      rewrite drop_ge by lia. by rewrite app_nil_r.
    - erewrite setitem_prextend_in; [|done|done|reflexivity|].
      + do 2 f_equal. destruct (Z.ltb_spec b 0); lia.
      + destruct (Z.ltb_spec b 0); [|lia].
        assert (0 < zlen (col_iter c)) by (destruct (col_iter c); [by specialize (Hne H)|simpl; lia]). lia.
  Qed.

  Lemma built_types cast ps (allowed : col_op A T → Prop) c :
    (∀ o, allowed o → match o with OpDelItem _ | OpRemoveAll _ _ => False | _ => True end) →
    built ty cast ps allowed c → types_ok ty c.
  Proof.
    intros Hal. induction 1 as [vs|c o c' Hc IH Ho Hd IHd Hdo].
    - apply new_pages_ok.
    - specialize (Hal o Ho). destruct o; simpl in Hdo; try done.
      + injection Hdo as <-. by apply col_extend_types.
      + injection Hdo as <-. apply types_ok_app. split; [done|]. by eapply IHd.
      + injection Hdo as <-. constructor.
      + by eapply col_setitem_types.
      + by eapply col_setslice_types.
      + by eapply col_delslice_types.
      + by eapply col_imul_types.
  Qed.

  Lemma built_counts cast ps (allowed : col_op A T → Prop) c :
    (∀ o, allowed o → match o with OpDelItem _ | OpRemoveAll _ _ => False | _ => True end) →
    built ty cast ps allowed c → counts_exactly (col_types c) (map ty (col_iter c)).
  Proof. intros ? ?. by eapply col_types_ok, built_types. Qed.

  Lemma gather_spec c idx :
    Forall (λ i, 0 <= i < zlen (col_iter c)) idx →
    ∃ vs, get_by_indices c idx = Ok (map Some vs) ∧
          Forall2 (λ i v, py_getitem (col_iter c) i = Ok v) idx vs.
  Proof.
    intros Hi. rewrite get_by_indices_spec.
    - induction Hi as [|i idx Hi _ (vs & Hv & Hf)].
      + exists []. split; [done|constructor].
      + destruct (znth_Some (col_iter c) i Hi) as [v Hv1]. exists (v :: vs). simpl.
        injection Hv as Hv. rewrite Hv, Hv1. split; [done|]. constructor; [|done].
        unfold py_getitem. destruct (Z.ltb_spec i 0); [lia|]. by rewrite Hv1.
    - eapply list.Forall_impl; [exact Hi|]. simpl. lia.
  Qed.
End final.

(** ** Refutations: concrete columns of integers (all of one type) *)
Definition one_ty (_ : Z) : unit := tt.
Definition zcol (pages : list (list Z)) : column Z unit := map (new_page one_ty) pages.
Definition id_cast (_ : list (page Z unit)) (v : Z) : res Z := Ok v.
