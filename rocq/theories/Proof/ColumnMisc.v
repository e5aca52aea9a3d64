(** Gathering, equality, type counts, removing and replacing. *)
From Verif.Spec Require Import Counts.
From Verif.Spec Require Export ColumnTerms.
From Verif.Model Require Import Column.
From Verif.Proof Require Import DictLemmas SliceLemmas ColumnRead ColumnWrite.
From Coq Require Import ZifyBool.
Local Open Scope Z_scope.

Section proofs.
  Context {A T : Type} `{EqDecision T} (ty : A → T).
  Implicit Types (c d : column A T) (p : page A T) (l : list A).

  (** ** get_by_indices *)
  Lemma znth_app l1 l2 i :
    znth (l1 ++ l2) i = if i <? zlen l1 then znth l1 i else znth l2 (i - zlen l1).
  Proof.
    unfold znth. destruct (Z.ltb_spec i (zlen l1)) as [H1|H1].
    - destruct (Z.ltb_spec i 0); [done|]. rewrite lookup_app_l by lia. done.
    - destruct (Z.ltb_spec i 0); [lia|]. destruct (Z.ltb_spec (i - zlen l1) 0); [lia|].
      rewrite lookup_app_r by lia. f_equal. lia.
  Qed.

  Lemma znth_None l i : ¬ (0 <= i < zlen l) → znth l i = None.
  Proof.
    intros Hi. unfold znth. destruct (Z.ltb_spec i 0); [done|]. apply lookup_ge_None. lia.
  Qed.

  Lemma znth_Some l i : 0 <= i < zlen l → is_Some (znth l i).
  Proof.
    intros Hi. unfold znth. destruct (Z.ltb_spec i 0); [lia|]. apply lookup_lt_is_Some. lia.
  Qed.

  Lemma gather_loop_spec c indices pre :
    Forall (λ i, 0 <= i) indices →
    gather_loop (zlen (col_iter pre)) c indices (map (znth (col_iter pre)) indices)
    = Ok (map (znth (col_iter (pre ++ c))) indices).
  Proof.
    intros Hi. revert pre. induction c as [|p c IH]; intros pre; simpl.
    { by rewrite app_nil_r. }
    unfold gather_page.
    assert (existsb (λ i, (zlen (col_iter pre) <=? i) && (i <? zlen (col_iter pre) + plen p) || (i =? -1)) indices
            && bool_decide (pdata p = []) = false) as ->.
    { destruct (decide (pdata p = [])) as [He|He].
      - rewrite (bool_decide_eq_true_2 (pdata p = [])) by done. rewrite andb_true_r.
        apply not_true_is_false. intros (i & Hin%elem_of_list_In & Hb)%existsb_exists.
        pose proof (proj1 (list.Forall_forall _ _) Hi i Hin) as Hi0; cbn beta in Hi0. unfold plen in Hb. rewrite He in Hb.
        simpl in Hb. lia.
      - rewrite (bool_decide_eq_false_2 (pdata p = [])) by done. apply andb_false_r. }
    cbn [res_bind].
    replace (zip_with _ indices _) with (map (znth (col_iter (pre ++ [p]))) indices).
    - replace (zlen (col_iter pre) + plen p) with (zlen (col_iter (pre ++ [p]))).
      + rewrite IH, <- app_assoc. done.
      + rewrite col_iter_app, app_length. unfold plen, col_iter. simpl. rewrite app_nil_r. lia.
    - clear IH. rewrite col_iter_app. unfold col_iter at 2. simpl. rewrite app_nil_r.
      induction Hi as [|i indices Hi _ IHi]; simpl; [done|]. f_equal; [|done].
      rewrite znth_app. unfold plen.
      destruct (Z.ltb_spec i (zlen (col_iter pre))) as [H1|H1].
      + destruct (Z.leb_spec (zlen (col_iter pre)) i); [lia|]. destruct (Z.eqb_spec i (-1)); [lia|]. done.
      + destruct (Z.leb_spec (zlen (col_iter pre)) i); [|lia]. destruct (Z.eqb_spec i (-1)); [lia|].
        destruct (Z.ltb_spec i (zlen (col_iter pre) + zlen (pdata p))); simpl; [done|].
        rewrite !znth_None by lia. done.
  Qed.

  Lemma get_by_indices_spec c indices :
    Forall (λ i, 0 <= i) indices →
    get_by_indices c indices = Ok (map (znth (col_iter c)) indices).
  Proof.
    intros Hi. unfold get_by_indices. rewrite <- (gather_loop_spec c indices [] Hi : _ = Ok (map (znth (col_iter c)) indices)).
    f_equal. clear Hi. induction indices as [|i indices IH]; simpl; [done|].
    rewrite IH. f_equal. unfold znth. by destruct (i <? 0).
  Qed.

  (** ** equality *)
  Section eq.
    Context (eqb neb : A → A → bool) (same_page : page A T → page A T → bool).

    Definition alleq l1 l2 : Prop := Forall2 (λ x y, eqb x y = true) l1 l2.

    Lemma forallb_zip l1 l2 :
      length l1 = length l2 →
      forallb (λ q : A * A, eqb q.1 q.2) (zip l1 l2) = true ↔ alleq l1 l2.
    Proof.
      revert l2. induction l1 as [|x l1 IH]; intros [|y l2] Hl; simpl in *; try lia.
      - split; [constructor|done].
      - rewrite andb_true_iff, IH by lia. unfold alleq. split; [intros []; by constructor|].
        intros Hf. by inversion Hf.
    Qed.

    Lemma alleq_length l1 l2 : alleq l1 l2 → zlen l1 = zlen l2.
    Proof. intros H. apply Forall2_length in H. lia. Qed.

    Lemma col_eq_list_spec c l : col_eq_list eqb c l = true ↔ alleq (col_iter c) l.
    Proof.
      unfold col_eq_list. rewrite col_len_iter.
      rewrite col_getslice_pos by (unfold sl_stepv; simpl; lia). rewrite getslice_all.
      destruct (Z.eqb_spec (zlen (col_iter c)) (zlen l)); simpl.
      - apply forallb_zip. lia.
      - split; [done|]. intros ?%alleq_length. done.
    Qed.

    Lemma alleq_app l1 l2 k1 k2 :
      length l1 = length k1 → alleq (l1 ++ l2) (k1 ++ k2) ↔ alleq l1 k1 ∧ alleq l2 k2.
    Proof.
      intros Hl. split.
      - intros Hf. unfold alleq in Hf. by apply Forall2_app_inv in Hf.
      - intros [? ?]. by apply Forall2_app.
    Qed.

    Lemma arr_slice_all l off len :
      0 <= off → 0 <= len → off + len <= zlen l →
      arr_slice l off (off + len) = take (Z.to_nat len) (drop (Z.to_nat off) l).
    Proof.
      intros. unfold arr_slice. rewrite getslice_between by lia.
      rewrite take_drop_commute. do 2 f_equal. lia.
    Qed.

    Lemma eq_arr_loop_spec c l pre :
      zlen (pre ++ col_iter c) = zlen l →
      eq_arr_loop eqb (zlen pre) c l = true ↔ alleq (col_iter c) (drop (length pre) l).
    Proof.
      revert pre. induction c as [|p c IH]; intros pre Hl.
      - change (@col_iter A T []) with (@nil A) in *. rewrite app_nil_r in Hl.
        rewrite drop_ge by lia. simpl. split; [constructor|done].
      - cbn [eq_arr_loop]. rewrite col_iter_cons, !app_length in Hl.
        unfold plen. rewrite arr_slice_all by lia. rewrite !Nat2Z.id.
        rewrite col_iter_cons.
        rewrite <- (take_drop (length (pdata p)) (drop (length pre) l)) at 2.
        rewrite alleq_app by (rewrite take_length, drop_length; lia).
        unfold arr_all_eq.
        rewrite <- (forallb_zip (pdata p)) by (rewrite take_length, drop_length; lia).
        destruct (forallb _ _); simpl. 2:{ split; [done|by intros [? _]]. }
        replace (zlen pre + zlen (pdata p)) with (zlen (pre ++ pdata p)) by (rewrite app_length; lia).
        rewrite IH by (rewrite !app_length; lia).
        rewrite drop_drop, app_length. split; [done|by intros [_ ?]].
    Qed.

    Lemma col_eq_arr_spec c l : col_eq_arr eqb c l = true ↔ alleq (col_iter c) l.
    Proof.
      unfold col_eq_arr. rewrite col_len_iter.
      destruct (Z.eqb_spec (zlen (col_iter c)) (zlen l)); simpl.
      - rewrite (eq_arr_loop_spec c l []) by done. done.
      - split; [done|]. intros ?%alleq_length. done.
    Qed.

    Context (eqb_refl : ∀ x, eqb x x = true).
    Context (neb_negb : ∀ x y, neb x y = negb (eqb x y)).
    Context (same_page_eq : ∀ p q, same_page p q = true → p = q).

    Lemma same_pages_eq c d : same_pages same_page c d = true → c = d.
    Proof.
      unfold same_pages. revert d. induction c as [|p c IH]; intros [|q d]; simpl; try done.
      rewrite !andb_true_iff. intros (Hl & Hp & Hr). f_equal; [by apply same_page_eq|].
      apply IH. rewrite andb_true_iff. done.
    Qed.

    Lemma same_layout_spec c d :
      same_layout c d = true →
      forallb (λ q, arr_all_eq eqb (pdata q.1) (pdata q.2)) (zip c d) = true
      ↔ alleq (col_iter c) (col_iter d).
    Proof.
      unfold same_layout. rewrite andb_true_iff, bool_decide_eq_true. intros [_ Hl].
      revert d Hl. induction c as [|p c IH]; intros [|q d] Hl; simpl in *; try done.
      { split; [constructor|done]. }
      injection Hl as Hp Hl. rewrite andb_true_iff, IH by done.
      rewrite !col_iter_cons. unfold plen in Hp. rewrite alleq_app by lia.
      unfold arr_all_eq. rewrite forallb_zip by lia. done.
    Qed.

    Lemma col_eq_col_spec c d : col_eq_col eqb neb same_page c d = true ↔ alleq (col_iter c) (col_iter d).
    Proof.
      unfold col_eq_col. rewrite !col_len_iter.
      destruct (Z.eqb_spec (zlen (col_iter c)) (zlen (col_iter d))) as [Hl|Hl]; simpl.
      2:{ split; [done|]. intros ?%alleq_length. done. }
      destruct (same_pages same_page c d) eqn:Hs.
      { apply same_pages_eq in Hs as ->. split; [|done]. intros _.
        apply Forall_Forall2_diag, list.Forall_forall. intros; apply eqb_refl. }
      destruct (same_layout c d) eqn:Hy; [by apply same_layout_spec|].
      rewrite <- forallb_zip by lia.
      f_equiv. apply eq_iff_eq_true. f_equiv.
      induction (zip (col_iter c) (col_iter d)) as [|q qs IH]; simpl; [done|].
      rewrite IH, neb_negb, negb_involutive. done.
    Qed.

    Lemma existsb_neb_forallb (qs : list (A * A)) :
      existsb (λ q, neb q.1 q.2) qs = negb (forallb (λ q, eqb q.1 q.2) qs).
    Proof. induction qs as [|q qs IH]; simpl; [done|]. by rewrite IH, neb_negb, negb_andb. Qed.

    Lemma col_ne_list_spec c l : col_ne_list neb c l = negb (col_eq_list eqb c l).
    Proof.
      unfold col_ne_list, col_eq_list. destruct (col_len c =? zlen l); simpl; [|done].
      rewrite col_getslice_pos by (unfold sl_stepv; simpl; lia). apply existsb_neb_forallb.
    Qed.

    Lemma existsb_negb_forallb {B} (f : B → bool) (qs : list B) :
      existsb (λ q, negb (f q)) qs = negb (forallb f qs).
    Proof. induction qs as [|q qs IH]; simpl; [done|]. by rewrite IH, negb_andb. Qed.

    Lemma col_ne_col_spec c d : col_ne_col eqb neb same_page c d = negb (col_eq_col eqb neb same_page c d).
    Proof.
      unfold col_ne_col, col_eq_col. destruct (col_len c =? col_len d); simpl; [|done].
      destruct (same_pages same_page c d); [done|].
      destruct (same_layout c d).
      - apply existsb_negb_forallb.
      - rewrite <- existsb_negb_forallb.
        induction (zip (col_iter c) (col_iter d)) as [|q qs IH]; simpl; [done|].
        by rewrite IH, negb_involutive.
    Qed.

    Lemma col_ne_arr_spec c l : col_ne_arr neb c l = negb (col_eq_arr eqb c l).
    Proof.
      unfold col_ne_arr, col_eq_arr. destruct (col_len c =? zlen l); simpl; [|done].
      generalize 0. induction c as [|p c IH]; intros off; simpl; [done|].
      unfold arr_any_ne, arr_all_eq. rewrite existsb_neb_forallb, IH.
      by destruct (forallb _ _).
    Qed.
  End eq.

  (** ** type counts *)
  Notation page_counted := (page_counted ty).
  Notation types_ok := (types_ok ty).

  Lemma new_page_ok l : page_counted (new_page ty l).
  Proof. apply (counter_fold ty l [] []), cdict_nil. Qed.

  Lemma new_pages_ok ps l : types_ok (map (new_page ty) (paginate ps l)).
  Proof. apply Forall_map, list.Forall_forall. intros x _. apply new_page_ok. Qed.

  Lemma types_ok_app c d : types_ok (c ++ d) ↔ types_ok c ∧ types_ok d.
  Proof. apply list.Forall_app. Qed.

  Lemma counter_iadd_ok (d o : list (T * Z)) ks ls :
    cdict d ks → cdict o ls → cdict (counter_iadd d o) (ks ++ ls).
  Proof.
    intros Hd Ho. unfold counter_iadd.
    pose proof (add_fold_NoDup o d (proj1 Hd)) as Hnd.
    split; [by apply filter_keys_NoDup|]. intros k. rewrite dget_filter by done.
    rewrite add_fold by apply Ho. rewrite (cdict_get_or _ _ k Hd), cnt_app.
    rewrite (proj2 Ho), (proj2 Hd). pose proof (cnt_pos k ks). pose proof (cnt_pos k ls).
    simpl. repeat case_decide; simpl in *; try lia; f_equal; lia.
  Qed.

  Lemma col_types_ok c : types_ok c → counts_exactly (col_types c) (map ty (col_iter c)).
  Proof.
    intros Hc. apply cdict_counts. unfold col_types.
    change (map ty (col_iter c)) with ([] ++ map ty (col_iter c)).
    generalize (@cdict_nil T _). generalize (@nil T). generalize (@nil (T * Z)).
    induction Hc as [|p c Hp Hc IH]; intros d ks Hd; simpl.
    - by rewrite app_nil_r.
    - rewrite col_iter_cons, map_app, app_assoc. apply IH. by apply counter_iadd_ok.
  Qed.

  Lemma swap_type_ok (d : list (T * Z)) ks ks' o n :
    cdict d ks → o ∈ ks →
    (∀ k, cnt k ks' + (if decide (k = o) then 1 else 0) = cnt k ks + (if decide (k = n) then 1 else 0)) →
    cdict (swap_type d o n) ks'.
  Proof.
    intros Hd Ho Hc. pose proof Hd as [Hnd Hg]. unfold swap_type.
    assert (Ho1 : 1 <= cnt o ks).
    { apply elem_of_list_split in Ho as (k1 & k2 & ->). rewrite cnt_app, cnt_cons.
      rewrite decide_True by done. pose proof (cnt_pos o k1). pose proof (cnt_pos o k2). lia. }
    rewrite (cdict_get_or _ _ n Hd).
    assert (E1 : dget_or (dset d n (cnt n ks + 1)) o 0 = if decide (o = n) then cnt n ks + 1 else cnt o ks).
    { unfold dget_or at 1. rewrite dget_dset. case_decide; [done|]. by apply cdict_get_or. }
    rewrite E1.
    assert (E2 : (if decide (o = n) then cnt n ks + 1 else cnt o ks) - 1 = cnt o ks').
    { specialize (Hc o). rewrite decide_True in Hc by done. case_decide; subst; lia. }
    rewrite E2.
    assert (E3 : dget_or (dset (dset d n (cnt n ks + 1)) o (cnt o ks')) o 0 = cnt o ks').
    { unfold dget_or. rewrite dget_dset, decide_True by done. done. }
    rewrite E3.
    assert (Hget : ∀ k, dget (dset (dset d n (cnt n ks + 1)) o (cnt o ks')) k =
              if decide (k = o) then Some (cnt o ks') else
              if decide (0 < cnt k ks') then Some (cnt k ks') else None).
    { intros k. rewrite !dget_dset, Hg. specialize (Hc k).
      pose proof (cnt_pos k ks). pose proof (cnt_pos k ks').
      repeat case_decide; subst; try done; try lia; f_equal; lia. }
    pose proof (cnt_pos o ks').
    destruct (Z.leb_spec (cnt o ks') 0).
    - split; [by apply ddel_NoDup, dset_NoDup, dset_NoDup|]. intros k. rewrite dget_ddel, Hget.
      destruct (decide (k = o)) as [->|]; [|done]. rewrite decide_False by lia. done.
    - split; [by apply dset_NoDup, dset_NoDup|]. intros k. rewrite Hget.
      destruct (decide (k = o)) as [->|]; [|done]. rewrite decide_True by lia. done.
  Qed.

  Lemma insert_cnt (l : list A) i old v k :
    l !! i = Some old →
    cnt k (map ty (<[i := v]> l)) + (if decide (k = ty old) then 1 else 0)
    = cnt k (map ty l) + (if decide (k = ty v) then 1 else 0).
  Proof.
    revert i. induction l as [|x l IH]; intros [|i] Hi; simpl in *; try done.
    - injection Hi as ->. rewrite !cnt_cons. repeat case_decide; subst; try lia; congruence.
    - rewrite !cnt_cons. specialize (IH _ Hi). lia.
  Qed.

  Lemma col_setitem_types c i v c' :
    types_ok c → col_setitem ty c i v = Ok c' → types_ok c'.
  Proof.
    intros Hc. unfold col_setitem. case_match; [done|].
    destruct (find_page _ 0 [] c) as [[[[bf st] p] af]|] eqn:Hf; [|by intros [= ->]].
    apply find_page_Some in Hf as (pre & -> & -> & -> & Hk). simpl.
    destruct (pdata p !! _) as [old|] eqn:Hl; [|done]. intros [= <-].
    apply types_ok_app in Hc as [Hpre Hc]. apply list.Forall_cons in Hc as [Hp Haf].
    apply types_ok_app. split; [done|]. apply list.Forall_cons. split; [|done].
    eapply swap_type_ok; [exact Hp| |].
    - apply elem_of_list_fmap. eexists. split; [done|]. by eapply elem_of_list_lookup_2.
    - intros k. by apply insert_cnt.
  Qed.

  Lemma col_extend_types ps c vs : types_ok c → types_ok (col_extend ty ps c vs).
  Proof. intros. apply types_ok_app. split; [done|apply new_pages_ok]. Qed.

  Lemma setitem_extend_types ps c a vs : types_ok c → types_ok (setitem_extend ty ps c a vs).
  Proof.
    intros Hc. unfold setitem_extend.
    destruct (find_page _ 0 [] c) as [[[[bf st] p] af]|] eqn:Hf.
    - apply find_page_Some in Hf as (pre & -> & -> & -> & Hk).
      apply col_extend_types. by apply types_ok_app in Hc as [Hpre _].
    - apply types_ok_app. split; [done|]. apply Forall_singleton, new_page_ok.
  Qed.

  Lemma setitem_prextend_types ps c b vs : types_ok c → types_ok (setitem_prextend ty ps c b vs).
  Proof.
    intros Hc. unfold setitem_prextend. case_match; [by apply col_extend_types; constructor|].
    destruct (find_page _ 0 [] c) as [[[[bf st] p] af]|] eqn:Hf; [|done].
    apply find_page_Some in Hf as (pre & -> & -> & -> & Hk).
    apply types_ok_app. split; [by apply col_extend_types; constructor|].
    apply types_ok_app in Hc as [_ Hc]. by apply list.Forall_cons in Hc as [_ ?].
  Qed.

  Lemma insert_loop_types ks kp off c acc :
    types_ok c → types_ok acc.1.1.1 → types_ok acc.2 →
    types_ok (insert_loop ks kp off c acc).1.1.1 ∧ types_ok (insert_loop ks kp off c acc).2.
  Proof.
    revert off acc. induction c as [|p c IH]; intros off [[[uh hd] tl] ut] Hc Hu Ht; [done|].
    cbn [insert_loop]. simpl in Hu, Ht. apply list.Forall_cons in Hc as [Hp Hc].
    assert (types_ok [p]) by (by constructor).
    apply IH; [done| |]; simpl; case_match; try done; by apply types_ok_app.
  Qed.

  Lemma setitem_insert_types ps c key vs : types_ok c → types_ok (setitem_insert ty ps c key vs).
  Proof.
    intros Hc. unfold setitem_insert. destruct (slice_indices key (col_len c)) as [[ks kp] st].
    set (kp' := if kp <? ks then ks else kp).
    pose proof (insert_loop_types ks kp' 0 c ([], [], [], []) Hc) as Hl.
    destruct (insert_loop ks kp' 0 c ([], [], [], [])) as [[[uh hd] tl] ut]. simpl in Hl.
    destruct Hl as [Hu Ht]; [constructor..|].
    apply types_ok_app. split; [done|]. apply types_ok_app. split; [apply new_pages_ok|done].
  Qed.

  Lemma update_loop_types ks kp off c acc :
    types_ok c → types_ok acc.1.1.1 → types_ok acc.1.2 →
    types_ok (update_loop ks kp off c acc).1.1.1 ∧ types_ok (update_loop ks kp off c acc).1.2.
  Proof.
    revert off acc. induction c as [|p c IH]; intros off [[[hd ch] tl] so] Hc Hu Ht; [done|].
    cbn [update_loop]. simpl in Hu, Ht. apply list.Forall_cons in Hc as [Hp Hc].
    assert (types_ok [p]) by (by constructor).
    apply IH; [done| |]; simpl; repeat case_match; simpl; try done; by apply types_ok_app.
  Qed.

  Lemma setitem_update_types cast ps c key vs c' :
    types_ok c → setitem_update ty cast ps c key vs = Ok c' → types_ok c'.
  Proof.
    intros Hc. unfold setitem_update. case_match; [done|].
    destruct (slice_indices key (col_len c)) as [[ks kp] st]. case_match; [done|].
    pose proof (update_loop_types ks kp 0 c ([], [], [], None) Hc) as Hl.
    destruct (update_loop ks kp 0 c ([], [], [], None)) as [[[hd ch] tl] so]. simpl in Hl.
    destruct Hl as [Hu Ht]; [constructor..|].
    destruct ch as [|p ch]; [done|]. set (ch' := p :: ch).
    destruct (update_assign _ _ _ _); simpl; [|done]. intros [= <-].
    apply types_ok_app. split; [done|]. apply types_ok_app. split; [apply new_pages_ok|done].
  Qed.

  Lemma col_setslice_types cast ps c key vs c' :
    types_ok c → col_setslice ty cast ps c key vs = Ok c' → types_ok c'.
  Proof.
    intros Hc. unfold col_setslice. cbv zeta.
    destruct (sl_start key); destruct (sl_stop key); destruct (match sl_step key with None => _ | _ => _ end).
    all: first [by apply setitem_update_types | intros [= <-]].
    - by apply setitem_insert_types.
    - by apply setitem_extend_types.
    - by apply setitem_prextend_types.
    - apply col_extend_types. constructor.
  Qed.

  Lemma del_loop_types ks kp off c acc :
    types_ok c → types_ok acc.1.1.1 → types_ok acc.1.2 →
    types_ok (del_loop ks kp off c acc).1.1.1 ∧ types_ok (del_loop ks kp off c acc).1.2.
  Proof.
    revert off acc. induction c as [|p c IH]; intros off [[[hd ch] tl] so] Hc Hu Ht; [done|].
    cbn [del_loop]. simpl in Hu, Ht. apply list.Forall_cons in Hc as [Hp Hc].
    assert (types_ok [p]) by (by constructor).
    apply IH; [done| |]; simpl; repeat case_match; simpl; try done; by apply types_ok_app.
  Qed.

  Lemma col_delslice_types ps c key c' :
    types_ok c → col_delslice ty ps c key = Ok c' → types_ok c'.
  Proof.
    intros Hc. unfold col_delslice. case_match; [done|].
    destruct (slice_indices key (col_len c)) as [[ks kp] st].
    pose proof (del_loop_types ks kp 0 c ([], [], [], None) Hc) as Hl.
    destruct (del_loop ks kp 0 c ([], [], [], None)) as [[[hd ch] tl] so]. simpl in Hl.
    destruct Hl as [Hu Ht]; [constructor..|].
    destruct ch as [|p ch]; [done|]. set (ch' := p :: ch). cbv zeta.
    match goal with |- res_map _ ?r = _ → _ => destruct r; simpl; [|done] end. intros [= <-].
    apply types_ok_app. split; [done|]. apply types_ok_app. split; [apply new_pages_ok|done].
  Qed.

  Lemma col_imul_spec c n :
    0 < n → res_map col_iter (col_imul c n) = Ok (concat (replicate (Z.to_nat n) (col_iter c))).
  Proof.
    intros Hn. unfold col_imul. destruct (Z.ltb_spec 0 n); [|lia]. simpl. f_equal.
    induction (Z.to_nat n) as [|k IH]; simpl; [done|]. by rewrite col_iter_app, IH.
  Qed.

  Lemma col_imul_types c n c' : types_ok c → col_imul c n = Ok c' → types_ok c'.
  Proof.
    intros Hc. unfold col_imul. case_match; [|done]. intros [= <-].
    induction (Z.to_nat n) as [|k IH]; simpl; [constructor|]. by apply types_ok_app.
  Qed.

  (** ** remove_all and replace *)
  Lemma masked (P : A → bool) b l :
    map fst (filter (λ q : A * bool, q.2 = b) (zip l (map P l))) = filter (λ x, P x = b) l.
  Proof.
    induction l as [|x l IH]; simpl; [done|]. rewrite !filter_cons. simpl.
    case_decide; simpl; by rewrite IH.
  Qed.

  Lemma existsb_id (P : A → bool) l : existsb id (map P l) = existsb P l.
  Proof. induction l as [|x l IH]; simpl; [done|]. by rewrite IH. Qed.

  Lemma existsb_false_filter (P : A → bool) l : existsb P l = false → filter (λ x, P x = false) l = l.
  Proof.
    induction l as [|x l IH]; simpl; [done|]. intros [? ?]%orb_false_iff.
    rewrite filter_cons, decide_True, IH by done. done.
  Qed.

  Lemma remove_all_spec eqb c vs :
    col_iter (col_remove_all eqb c vs)
    = filter (λ x, existsb (eqb x) vs = false) (col_iter c).
  Proof.
    induction c as [|p c IH]; [done|]. simpl. rewrite !col_iter_cons, list.filter_app, IH. f_equal.
    unfold remove_all_page. rewrite existsb_id.
    destruct (existsb (λ x, existsb (eqb x) vs) (pdata p)) eqn:He; simpl.
    - apply masked.
    - by rewrite existsb_false_filter.
  Qed.

  Lemma find_list_find (f : A * A → bool) m :
    (list_find (λ kv, f kv) m ≫= λ q, Some q.2.2) = match List.find f m with Some kv => Some kv.2 | None => None end.
  Proof.
    induction m as [|kv m IH]; simpl; [done|]. destruct (f kv) eqn:Hf.
    - done.
    - simpl. rewrite <- IH.
      destruct (list_find _ m) as [[]|]; done.
  Qed.

  Lemma map_get_find eqb (m : list (A * A)) x :
    map_get eqb m x = match List.find (A:=A*A) (λ kv, eqb x kv.1) m with Some kv => Some kv.2 | None => None end.
  Proof. unfold map_get. apply (find_list_find (λ kv, eqb x kv.1)). Qed.

  Lemma replace_loop_spec conv eqb m (w : list A) dt :
    Forall (λ x, existsb (eqb x) (map fst m) = true) w →
    Forall (λ kv, conv kv.2 = Ok kv.2) m →
    ∃ dt', replace_loop ty conv eqb m w dt = Ok (map (subst_value eqb m) w, dt') ∧
      ∀ rest, cdict dt (rest ++ map ty w) → cdict dt' (rest ++ map ty (map (subst_value eqb m) w)).
  Proof.
    intros Hw Hconv. revert dt. induction Hw as [|x w Hx Hw IH]; intros dt; simpl.
    { exists dt. done. }
    rewrite map_get_find. unfold subst_value at 1 3.
    destruct (List.find (λ kv, eqb x kv.1) m) as [kv|] eqn:Hf.
    2:{ exfalso. apply existsb_exists in Hx as (k & (kv & <- & Hin)%in_map_iff & Hk).
        pose proof (List.find_none _ _ Hf _ Hin). simpl in *. congruence. }
    apply List.find_some in Hf as [Hin _].
    rewrite (proj1 (list.Forall_forall _ _) Hconv kv (proj2 (elem_of_list_In _ _) Hin)).
    simpl. destruct (IH (swap_type dt (ty x) (ty kv.2))) as (dt' & -> & Hdt). simpl.
    exists dt'. split; [done|]. intros rest Hd.
    eapply cdict_perm; [|apply (Hdt (rest ++ [ty kv.2]))].
    - intros k. rewrite !cnt_app, !cnt_cons, cnt_nil. lia.
    - eapply swap_type_ok; [exact Hd|set_solver|]. intros k.
      rewrite !cnt_app, !cnt_cons, cnt_nil. repeat case_decide; subst; try lia; congruence.
  Qed.

  Lemma put_masked_spec (hit : A → bool) (f : A → A) l :
    put_masked l (map hit l) (map f (filter (λ x, hit x = true) l))
    = map (λ x, if hit x then f x else x) l.
  Proof.
    induction l as [|x l IH]; simpl; [done|]. rewrite filter_cons. destruct (hit x) eqn:Hx; simpl.
    - by rewrite IH.
    - rewrite IH. by destruct (map f _).
  Qed.

  Lemma subst_value_miss (eqb : A → A → bool) m x :
    existsb (eqb x) (map fst m) = false → subst_value eqb m x = x.
  Proof.
    intros Hx. unfold subst_value. destruct (List.find _ m) as [kv|] eqn:Hf; [|done].
    apply List.find_some in Hf as [Hin Hk]. exfalso.
    assert (existsb (eqb x) (map fst m) = true); [|congruence].
    apply existsb_exists. exists kv.1. split; [by apply in_map|done].
  Qed.

  Lemma cnt_split (hit : A → bool) l k :
    cnt k (map ty l) = cnt k (map ty (filter (λ x, hit x = false) l))
                       + cnt k (map ty (filter (λ x, hit x = true) l)).
  Proof.
    induction l as [|x l IH]; simpl; [done|].
    rewrite !filter_cons. destruct (hit x) eqn:Hx; simpl; rewrite !cnt_cons, IH; lia.
  Qed.

  Lemma replace_page_spec cast np_array (eqb : A → A → bool) m p :
    np_array (map fst m) = map fst m →
    Forall (λ kv, cast [p] kv.2 = Ok kv.2) m →
    ∃ p', replace_page ty cast np_array eqb m p = Ok p' ∧
          pdata p' = map (subst_value eqb m) (pdata p) ∧ (page_counted p → page_counted p').
  Proof.
    intros Hnp Hc. unfold replace_page. rewrite Hnp, existsb_id.
    set (hit := λ x, existsb (eqb x) (map fst m)).
    assert (Hsub : ∀ x, (if hit x then subst_value eqb m x else x) = subst_value eqb m x).
    { intros x. destruct (hit x) eqn:Hx; [done|]. by rewrite subst_value_miss. }
    destruct (existsb hit (pdata p)) eqn:He.
    - rewrite (masked hit).
      destruct (replace_loop_spec (cast [p]) eqb m (filter (λ x, hit x = true) (pdata p)) (ptypes p))
        as (dt' & -> & Hdt).
      { apply list.Forall_forall. intros x [Hx _]%elem_of_list_filter. done. }
      { done. }
      simpl. eexists. split; [done|]. simpl. rewrite put_masked_spec. split.
      + apply map_ext. done.
      + intros Hp. unfold page_counted in *. simpl. rewrite (map_ext _ _ Hsub).
        eapply cdict_perm; [|apply (Hdt (map ty (filter (λ x, hit x = false) (pdata p))))].
        * intros k. rewrite cnt_app. clear -Hsub.
          induction (pdata p) as [|x l IH]; simpl; [done|].
          rewrite !filter_cons. specialize (Hsub x). destruct (hit x) eqn:Hx; simpl; rewrite !cnt_cons; [lia|].
          rewrite <- Hsub. lia.
        * eapply cdict_perm; [|exact Hp]. intros k. rewrite cnt_app. apply cnt_split.
    - exists p. split; [done|]. split; [|done].
      clear Hc. induction (pdata p) as [|x l IH]; simpl in *; [done|].
      apply orb_false_iff in He as [Hx He]. rewrite <- IH by done.
      rewrite subst_value_miss by done. done.
  Qed.

  Lemma col_replace_spec cast np_array (eqb : A → A → bool) c m :
    np_array (map fst m) = map fst m →
    (∀ p, p ∈ c → Forall (λ kv, cast [p] kv.2 = Ok kv.2) m) →
    ∃ c', col_replace ty cast np_array eqb c m = Ok c' ∧
          col_iter c' = map (subst_value eqb m) (col_iter c) ∧
          map plen c' = map plen c ∧ (types_ok c → types_ok c').
  Proof.
    intros Hnp. induction c as [|p c IH]; intros Hc; simpl.
    { exists []. done. }
    destruct (replace_page_spec cast np_array eqb m p) as (p' & -> & Hd & Hok); [done|apply Hc; by left|].
    simpl. destruct IH as (c' & -> & Hi & Hl & Hoks); [intros q Hq; apply Hc; by right|].
    simpl. eexists. split; [done|]. rewrite !col_iter_cons, Hd, Hi, map_app. split; [done|]. split.
    - simpl. rewrite Hl. unfold plen. rewrite Hd, map_length. done.
    - intros [Hp Hcs]%list.Forall_cons. constructor; [by apply Hok|by apply Hoks].
  Qed.

  Lemma col_contains_spec eqb c x :
    col_contains eqb c x = existsb (λ y, eqb y x) (col_iter c).
  Proof.
    unfold col_contains. induction c as [|p c IH]; [done|]. simpl.
    rewrite col_iter_cons, existsb_app, IH. done.
  Qed.
End proofs.
