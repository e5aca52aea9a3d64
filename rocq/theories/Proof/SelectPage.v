(** One page of [column_select]. *)
From Verif.Model Require Import ColumnSelect.
From Verif.Proof Require Import DictLemmas SelectMask.

Section page.
  Context {A K : Type} `{EqDecision A, EqDecision K} (kind : A → K) (knone kstr : K) (none estr : A).
  Context (conv : K → A → res A) (no_text no_none : desired (K := K) → A) (no_value : desired (K := K) → A → A).
  Context (Hkn : ∀ v, kind v = knone ↔ v = none) (Hks : kind estr = kstr) (Hns : knone ≠ kstr).
  Context (Hid : ∀ v, v ≠ none → conv (kind v) v = Ok v).

  Notation W := (wanted none estr kstr (λ k v, ok_of (conv k v)) wish_of no_text no_none no_value).
  Notation page_ok := (ColumnSelect.page_ok kind knone).

  Lemma none_estr : none ≠ estr.
  Proof using Hkn Hks Hns. intros H. apply Hns. rewrite <- Hks, <- H. symmetry. apply Hkn. done. Qed.

  Lemma wanted_kind d v :
    kind v = d_type d → v ≠ none → (d_type d = kstr → d_allow d = true) → W d v = inl v.
  Proof using Hid Hks.
    intros Hk Hv Ha. unfold wanted, wish_of. cbn [w_type w_empty].
    destruct (decide (v = none ∨ v = estr)) as [[?|He]|Hn]; [done| |].
    - assert (d_type d = kstr) as Hs by congruence.
      rewrite (Ha Hs), decide_True by done. by rewrite He.
    - rewrite <- Hk, Hid by done. done.
  Qed.

  Lemma as_is_wanted d p v : page_ok p → as_is kstr d p = true → v ∈ pg_vals p → W d v = inl v.
  Proof using Hid Hkn Hks.
    unfold ColumnSelect.page_ok, as_is. destruct (pg_kind p) as [k|]; [|done]. intros [Hk Hp] [H1 H2]%andb_true_iff Hv.
    apply bool_decide_eq_true in H1. pose proof (proj1 (list.Forall_forall _ _) Hp v Hv) as Hkv. cbv beta in Hkv.
    apply wanted_kind.
    - congruence.
    - intros ->. apply Hk. rewrite <- Hkv. by apply Hkn.
    - intros Hs. apply orb_true_iff in H2 as [H2|H2]; [|done].
      rewrite bool_decide_eq_true_2 in H2 by congruence. done.
  Qed.

  Lemma page_types_kind p v : page_ok p → v ∈ pg_vals p → kind v ∈ page_types kind p.
  Proof using.
    unfold ColumnSelect.page_ok, page_types. destruct (pg_kind p) as [k|].
    - intros [_ Hp] Hv. pose proof (proj1 (list.Forall_forall _ _) Hp v Hv) as Hkv. cbv beta in Hkv. rewrite Hkv. left.
    - intros _ Hv. apply elem_of_remove_dups. apply elem_of_list_fmap. eauto.
  Qed.

  Lemma correct_wanted d c p v :
    Forall page_ok c → needs_to_iterate kind knone kstr d c = false → p ∈ c → v ∈ pg_vals p → W d v = inl v.
  Proof using Hid Hkn Hks Hns.
    intros Hc Hn Hp Hv.
    assert (Hin : kind v ∈ column_types kind c).
    { apply elem_of_remove_dups. apply elem_of_list_In, in_concat. exists (page_types kind p). split.
      - apply elem_of_list_In, elem_of_list_fmap. eauto.
      - apply elem_of_list_In, page_types_kind; [|done]. exact (proj1 (list.Forall_forall _ _) Hc p Hp). }
    unfold needs_to_iterate in Hn.
    (* the part below the test for None *)
    assert (Hcheck : ∀ l, kind v ∈ l → v ≠ none →
      match l with
      | [] => false
      | [activeType] => if decide (activeType ≠ d_type d) then true else bool_decide (activeType = kstr) && negb (d_allow d)
      | _ => true
      end = false → W d v = inl v).
    { intros l Hl Hvn. destruct l as [|k [|k' l]]; [by apply elem_of_nil in Hl| |done].
      apply elem_of_list_singleton in Hl. subst k.
      destruct (decide (kind v ≠ d_type d)) as [|Hd]; [done|]. intros Hb.
      apply dec_stable in Hd. apply wanted_kind; [done|done|]. intros Hs.
      rewrite bool_decide_eq_true_2 in Hb by congruence. destruct (d_allow d); done. }
    destruct (decide (knone ∈ column_types kind c)) as [Hno|Hno].
    - destruct (d_allow d) eqn:Ha; [|done]. cbn [negb] in Hn.
      destruct (decide (d_type d = kstr)) as [|Hs]; [done|].
      destruct (decide (v = none)) as [->|Hvn].
      + unfold wanted, wish_of. cbn [w_type w_empty]. rewrite decide_True by (by left). rewrite Ha, decide_False by done. done.
      + apply (Hcheck (filter (λ k, k ≠ knone) (column_types kind c))); [|done|done].
        apply elem_of_list_filter. split; [|done]. intros Hk. apply Hvn. by apply Hkn.
    - apply (Hcheck (column_types kind c)); [done| |done]. intros ->. apply Hno.
      replace knone with (kind none) by (by apply Hkn). done.
  Qed.

  (** the new entries of buffer, mask and reasons *)
  Definition cell_out (d : desired) (v : A) (m : mask) (r : A) : A * mask * A :=
    if decide (m = INVALID) then (none, INVALID, r) else
    match W d v with inl x => (x, VALID, r) | inr q => (none, INVALID, q) end.

  Lemma emptiness_spec d p v : page_ok p → v ∈ pg_vals p →
    emptiness kind knone kstr none estr no_text no_none d p v =
      if decide (v = none ∨ v = estr) then Some (if decide (v = none) then no_none d else no_text d) else None.
  Proof using Hkn Hks Hns no_value.
    intros Hp Hv. pose proof none_estr as Hne. unfold emptiness. unfold ColumnSelect.page_ok in Hp.
    destruct (pg_kind p) as [k|] eqn:Ek.
    - destruct Hp as [Hk Hp]. pose proof (proj1 (list.Forall_forall _ _) Hp v Hv) as Hkv. cbv beta in Hkv.
      assert (Hvn : v ≠ none) by (intros ->; apply Hk; rewrite <- Hkv; by apply Hkn).
      destruct (decide (v = estr)) as [->|He].
      + rewrite decide_True by (split; congruence). rewrite decide_True by (by right). rewrite decide_False by done. done.
      + rewrite decide_False by tauto. rewrite decide_False by tauto. done.
    - assert (Hin : kind v ∈ page_types kind p).
      { apply page_types_kind; [|done]. unfold ColumnSelect.page_ok. by rewrite Ek. }
      unfold can_be_none. rewrite Ek.
      destruct (decide (v = none)) as [->|Hvn].
      + rewrite (decide_True (P := none = none ∨ none = estr)) by (by left).
        replace (kind none) with knone in Hin by (symmetry; by apply Hkn).
        rewrite bool_decide_eq_true_2 by done. cbn [orb negb]. rewrite decide_False by done. done.
      + destruct (decide (v = estr)) as [->|He].
        * rewrite Hks in Hin. rewrite (bool_decide_eq_true_2 (kstr ∈ _)) by done. rewrite orb_true_r. cbn [negb].
          rewrite decide_True by (by right). done.
        * rewrite (decide_False (P := v = none ∨ v = estr)) by tauto. destruct (negb _); done.
  Qed.

  Lemma make_cell_spec d p v m r : page_ok p → v ∈ pg_vals p → (∀ e, conv (d_type d) v = Err e → e = ValueError) →
    make_cell kind knone kstr none estr conv no_text no_none no_value d p v m r = Ok (cell_out d v m r).
  Proof using Hkn Hks Hns.
    intros Hp Hv Hc. unfold make_cell, cell_out. destruct (decide (m = INVALID)) as [|Hm]; [done|].
    rewrite emptiness_spec by done. unfold wanted, wish_of, empty_value. cbn [w_type w_empty].
    destruct (decide (v = none ∨ v = estr)) as [He|He].
    - destruct (d_allow d); [done|]. destruct (decide (v = none)); done.
    - destruct (conv (d_type d) v) as [x|e] eqn:Ev; [done|]. rewrite (Hc e eq_refl). done.
  Qed.

  Lemma make_page_spec d p vs ms rs : page_ok p → vs ⊆ pg_vals p →
    (∀ v e, v ∈ vs → conv (d_type d) v = Err e → e = ValueError) →
    (length vs ≤ length ms)%nat → (length vs ≤ length rs)%nat →
    ∃ buf ms' rs', make_page kind knone kstr none estr conv no_text no_none no_value d p vs ms rs = Ok (buf, ms', rs') ∧
      length buf = length vs ∧ length ms' = length ms ∧ length rs' = length rs ∧
      (∀ j v m r, vs !! j = Some v → ms !! j = Some m → rs !! j = Some r →
        buf !! j = Some (cell_out d v m r).1.1 ∧ ms' !! j = Some (cell_out d v m r).1.2 ∧ rs' !! j = Some (cell_out d v m r).2) ∧
      (∀ j, (length vs ≤ j)%nat → ms' !! j = ms !! j ∧ rs' !! j = rs !! j).
  Proof using Hkn Hks Hns.
    intros Hp. revert ms rs. induction vs as [|v vs IH]; intros ms rs Hsub Hc Hm Hr.
    { exists [], ms, rs. split_and!; try done. }
    destruct ms as [|m ms]; [simpl in Hm; lia|]. destruct rs as [|r rs]; [simpl in Hr; lia|].
    cbn [make_page]. rewrite make_cell_spec; [|done|apply Hsub; left|intros e; apply Hc; left].
    cbn [res_bind].
    destruct (IH ms rs) as (buf & ms' & rs' & -> & Hb & Hm' & Hr' & Hin & Hout).
    { intros x Hx. apply Hsub. by right. }
    { intros x e Hx. apply Hc. by right. }
    { simpl in Hm. lia. }
    { simpl in Hr. lia. }
    cbn [res_map fst snd].
    exists ((cell_out d v m r).1.1 :: buf), ((cell_out d v m r).1.2 :: ms'), ((cell_out d v m r).2 :: rs').
    split_and!; [done|simpl; lia|simpl; lia|simpl; lia| |].
    - intros [|j] v' m' r'; simpl; [naive_solver|]. apply Hin.
    - intros [|j] Hj; simpl in Hj; [lia|]. simpl. apply Hout. lia.
  Qed.

  (** ** the columns of one page *)
  Context (pages : list (string * page (A := A) (K := K))) (correct : string → bool) (Pg : desired (K := K) → page (A := A) (K := K)) (L ps : nat).
  Context (Hpages : ∀ c, c ∈ pages → page_ok c.2 ∧ length (pg_vals c.2) = L) (HL : (L ≤ ps)%nat).
  Notation vs := (λ d, pg_vals (Pg d)).
  Notation cellw := (cell_wanted none estr kstr (λ k v, ok_of (conv k v)) wish_of no_text no_none no_value vs).
  Notation rr ds := (row_reason none estr kstr (λ k v, ok_of (conv k v)) wish_of no_text no_none no_value ds vs).

  (** what is assumed of a wanted column *)
  Definition good (d : desired) : Prop :=
    dget pages (d_orig d) = Some (Pg d) ∧
    (correct (d_name d) = true → Forall (λ v, W d v = inl v) (pg_vals (Pg d))) ∧
    (correct (d_name d) = false → d_type d ≠ knone) ∧
    (∀ v e, v ∈ pg_vals (Pg d) → conv (d_type d) v = Err e → e = ValueError).
  Definition active (d : desired) : bool := correct (d_name d) || negb (as_is kstr d (Pg d)).

  Lemma good_page d : good d → page_ok (Pg d) ∧ length (pg_vals (Pg d)) = L.
  Proof using Hpages.
    intros (Hd & _). revert Hd. clear -Hpages. induction pages as [|[n p] l IH]; [done|]. cbn [dget].
    destruct (decide (d_orig d = n)).
    - intros [= <-]. apply (Hpages (n, p)). left.
    - apply IH. intros c Hc. apply Hpages. by right.
  Qed.

  Lemma rr_snoc ds d j : rr (ds ++ [d]) j =
    match rr ds j with Some r => Some r | None => match cellw j d with Some (inr r) => Some r | _ => None end end.
  Proof using.
    unfold row_reason. rewrite omap_app.
    destruct (omap _ ds) as [|r l]; cbn [app head]; [|done].
    cbn. destruct (cell_wanted _ _ _ _ _ _ _ _ _ _ _) as [[?|?]|]; done.
  Qed.

  Definition inv (ds : list desired) (s : list mask * list A * list (string * list A)) : Prop :=
    let '(ms, rs, cast) := s in
    length ms = ps ∧ length rs = ps ∧
    (∀ j, (j < L)%nat → match rr ds j with
       | Some r => ms !! j = Some INVALID ∧ rs !! j = Some r
       | None => ms !! j = Some (if existsb active ds then VALID else UNUSED)
       end) ∧
    (∀ j, (L ≤ j < ps)%nat → ms !! j = Some UNUSED) ∧
    cast.*1 = d_name <$> ds ∧
    (∀ d, d ∈ ds → ∃ l, dget cast (d_name d) = Some l ∧ length l = L ∧
       ∀ j, (j < L)%nat → rr ds j = None → ∃ x, cellw j d = Some (inl x) ∧ l !! j = Some x).

  Lemma inv_nil : inv [] (replicate ps UNUSED, replicate ps estr, []).
  Proof using HL.
    unfold inv. split_and!; try (rewrite replicate_length; done).
    - intros j Hj. cbn. apply lookup_replicate. split; [done|lia].
    - intros j Hj. apply lookup_replicate. split; [done|lia].
    - done.
    - intros d Hd. by apply elem_of_nil in Hd.
  Qed.

  (** a step which leaves row [j] as it is or turns it down *)
  Lemma inv_step ds d ms rs cast ms' rs' l :
    inv ds (ms, rs, cast) → d_name d ∉ d_name <$> ds →
    length ms' = ps → length rs' = ps → length l = L →
    (∀ j, (L ≤ j)%nat → ms' !! j = ms !! j) →
    (∀ j m r, (j < L)%nat → ms !! j = Some m → rs !! j = Some r →
      if decide (m = INVALID) then ms' !! j = Some INVALID ∧ rs' !! j = Some r
      else match cellw j d with
           | Some (inl x) => ms' !! j = Some (if active d then VALID else m) ∧ l !! j = Some x
           | Some (inr q) => ms' !! j = Some INVALID ∧ rs' !! j = Some q
           | None => False
           end) →
    inv (ds ++ [d]) (ms', rs', dset cast (d_name d) l).
  Proof using HL Hks Hns Hpages.
    intros (Hm & Hr & Hin & Hout & Hk & Hcast) Hnew Hm' Hr' Hl Hge Hcell. unfold inv. split_and!; [done|done| | | |].
    - intros j Hj.
      assert (Hlm : (j < length ms)%nat) by lia. assert (Hlr : (j < length rs)%nat) by lia.
      destruct (lookup_lt_is_Some_2 ms j Hlm) as [m Em]. destruct (lookup_lt_is_Some_2 rs j Hlr) as [r Er].
      specialize (Hcell j m r Hj Em Er). specialize (Hin j Hj). rewrite rr_snoc.
      destruct (rr ds j) as [q|].
      + destruct Hin as [Hi Hq]. rewrite Em in Hi. inversion Hi; subst m. rewrite decide_True in Hcell by done.
        rewrite Er in Hq. inversion Hq; subst. done.
      + rewrite Em in Hin. inversion Hin; subst m.
        rewrite decide_False in Hcell by (destruct (existsb active ds); done).
        destruct (cellw j d) as [[x|q]|]; [|done|done].
        destruct Hcell as [-> _]. f_equal. rewrite existsb_app. cbn [existsb]. rewrite orb_false_r.
        destruct (active d), (existsb active ds); done.
    - intros j Hj. rewrite Hge by lia. apply Hout. done.
    - rewrite dset_keys, decide_False by (by rewrite Hk). rewrite Hk, fmap_app. done.
    - intros d' Hd'.
      assert (Hnone : ∀ j, rr (ds ++ [d]) j = None → rr ds j = None).
      { intros j. rewrite rr_snoc. destruct (rr ds j); done. }
      apply elem_of_app in Hd' as [Hd'|Hd'].
      + destruct (Hcast d' Hd') as (l' & Hg & Hl' & Hx). exists l'. split_and!; [|done|].
        * rewrite dget_dset, decide_False; [done|]. intros Heq. apply Hnew. rewrite <- Heq. apply elem_of_list_fmap. eauto.
        * intros j Hj Hj'. apply Hx; [done|]. by apply Hnone.
      + apply elem_of_list_singleton in Hd'. subst d'. exists l. split_and!; [by rewrite dget_dset, decide_True by done|done|].
        intros j Hj Hj'.
        assert (Hlm : (j < length ms)%nat) by lia. assert (Hlr : (j < length rs)%nat) by lia.
        destruct (lookup_lt_is_Some_2 ms j Hlm) as [m Em]. destruct (lookup_lt_is_Some_2 rs j Hlr) as [r Er].
        specialize (Hcell j m r Hj Em Er). specialize (Hin j Hj). rewrite rr_snoc in Hj'.
        destruct (rr ds j) as [q|]; [done|]. rewrite Em in Hin. inversion Hin; subst m.
        rewrite decide_False in Hcell by (destruct (existsb active ds); done).
        destruct (cellw j d) as [[x|q]|]; [|done|done]. exists x. split; [done|]. apply Hcell.
  Qed.

  Lemma cellw_lookup d j : good d → (j < L)%nat → ∃ v, pg_vals (Pg d) !! j = Some v ∧ cellw j d = Some (W d v).
  Proof using HL Hpages.
    intros Hg Hj. destruct (good_page d Hg) as [_ Hl].
    destruct (lookup_lt_is_Some_2 (pg_vals (Pg d)) j) as [v Hv]; [lia|]. exists v. split; [done|].
    unfold cell_wanted. rewrite Hv. done.
  Qed.

  Lemma convert_column_spec ds d s : inv ds s → good d → d_name d ∉ d_name <$> ds →
    ∃ s', convert_column kind knone kstr none estr conv no_text no_none no_value pages correct s d = Ok s' ∧ inv (ds ++ [d]) s'.
  Proof using HL Hid Hkn Hks Hns Hpages.
    destruct s as [[ms rs] cast]. intros Hinv Hg Hnew. pose proof Hg as (Hget & Hcor & Hty & Hconv).
    destruct (good_page d Hg) as [Hpok Hlen].
    pose proof Hinv as (Hm & Hr & _ & _ & _ & _).
    unfold convert_column. rewrite Hget. rewrite Hlen.
    rewrite (proj2 (Nat.ltb_ge _ _)) by lia.
    destruct (correct (d_name d)) eqn:Ec.
    { eexists. split; [done|]. apply (inv_step ds d ms rs cast _ rs); try done.
      - rewrite app_length, map_length, take_length, drop_length. lia.
      - intros j Hj. rewrite lookup_app_r by (rewrite map_length, take_length; lia).
        rewrite map_length, take_length, lookup_drop. f_equal. lia.
      - intros j m r Hj Em Er. rewrite lookup_app_l by (rewrite map_length, take_length; lia).
        change (map ?f ?l) with (f <$> l). rewrite list_lookup_fmap, lookup_take by done. rewrite Em. cbn [fmap option_fmap option_map].
        destruct (decide (m = INVALID)) as [|Hmi]; [done|].
        destruct (cellw_lookup d j Hg Hj) as (v & Hv & ->).
        rewrite (proj1 (list.Forall_lookup _ _) (Hcor eq_refl) j v Hv).
        unfold active. rewrite Ec. done. }
    rewrite decide_False by (by apply Hty).
    destruct (as_is kstr d (Pg d)) eqn:Ea.
    { eexists. split; [done|]. apply (inv_step ds d ms rs cast _ rs); try done.
      intros j m r Hj Em Er. destruct (decide (m = INVALID)) as [->|Hmi]; [done|].
      destruct (cellw_lookup d j Hg Hj) as (v & Hv & ->).
      rewrite (as_is_wanted d (Pg d) v) by (done || by eapply elem_of_list_lookup_2).
      unfold active. rewrite Ec, Ea. done. }
    destruct (make_page_spec d (Pg d) (pg_vals (Pg d)) ms rs) as (buf & ms' & rs' & -> & Hb & Hm' & Hr' & Hin & Hout);
      [done|done|done|lia|lia|].
    cbn [res_map fst snd]. eexists. split; [done|]. apply (inv_step ds d ms rs cast); try done.
    - lia.
    - lia.
    - lia.
    - intros j Hj. apply Hout. lia.
    - intros j m r Hj Em Er. destruct (cellw_lookup d j Hg Hj) as (v & Hv & ->).
      destruct (Hin j v m r Hv Em Er) as (H1 & H2 & H3). unfold cell_out in *.
      destruct (decide (m = INVALID)); [done|]. unfold active. rewrite Ec, Ea. cbn [orb negb].
      destruct (W d v); done.
  Qed.

  Lemma convert_fold ds2 : ∀ ds1 s, inv ds1 s → Forall good ds2 → NoDup (d_name <$> ds1 ++ ds2) →
    ∃ s', fold_left (λ s d, res_bind s (λ s, convert_column kind knone kstr none estr conv no_text no_none no_value pages correct s d)) ds2 (Ok s) = Ok s' ∧ inv (ds1 ++ ds2) s'.
  Proof using HL Hid Hkn Hks Hns Hpages.
    induction ds2 as [|d ds2 IH]; intros ds1 s Hs Hg Hnd.
    { exists s. rewrite app_nil_r. done. }
    cbn [fold_left res_bind]. apply list.Forall_cons in Hg as [Hd Hg].
    destruct (convert_column_spec ds1 d s Hs Hd) as (s1 & -> & Hs1).
    { rewrite fmap_app, list.NoDup_app in Hnd. destruct Hnd as (_ & Hnd & _). intros Hin. apply (Hnd _ Hin).
      rewrite fmap_cons. left. }
    destruct (IH (ds1 ++ [d]) s1 Hs1 Hg) as (s2 & Hs2 & Hinv).
    { rewrite <- app_assoc. done. }
    exists s2. split; [done|]. rewrite <- app_assoc in Hinv. done.
  Qed.
End page.
