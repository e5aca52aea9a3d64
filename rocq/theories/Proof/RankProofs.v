(** C64 *)
From Verif.Spec Require Import Counts.
From Verif.Model Require Import Rank.
From Verif.Proof Require Import DictLemmas.
From Coq Require Import ZifyBool.
Local Open Scope Z_scope.

(** ** Python *)
Section PyRank.
  Context {K : Type} `{EqDecision K}.
  Implicit Types (s : prank K) (k : K).

  Lemma swap_lookup {A} (l : list A) i j x y m :
    i ≠ j → l !! i = Some x → l !! j = Some y →
    swap l i j !! m = if decide (m = j) then Some x else if decide (m = i) then Some y else l !! m.
  Proof.
    intros Hij Hi Hj. unfold swap. rewrite Hi, Hj.
    apply lookup_lt_Some in Hi as Hli. apply lookup_lt_Some in Hj as Hlj.
    destruct (decide (m = j)) as [->|Hm].
    - apply list_lookup_insert. by rewrite insert_length.
    - rewrite list_lookup_insert_ne by done. destruct (decide (m = i)) as [->|Hm'].
      + by apply list_lookup_insert.
      + by rewrite list_lookup_insert_ne by done.
  Qed.

  Lemma swap_perm {A} (l : list A) i j : i ≠ j → swap l i j ≡ₚ l.
  Proof.
    intros Hij. unfold swap. destruct (l !! i) as [x|] eqn:Hi; [|done].
    destruct (l !! j) as [y|] eqn:Hj; [|done]. symmetry.
    apply Permutation_inj. split; [by rewrite !insert_length|].
    apply lookup_lt_Some in Hi as Hli. apply lookup_lt_Some in Hj as Hlj.
    exists (λ m, if decide (m = j) then i else if decide (m = i) then j else m). split.
    - intros a b. repeat case_decide; congruence.
    - intros m. destruct (decide (m = j)) as [->|Hm].
      + rewrite list_lookup_insert_ne by done. by rewrite list_lookup_insert, Hj by done.
      + destruct (decide (m = i)) as [->|Hm'].
        * by rewrite list_lookup_insert, Hi by (by rewrite insert_length).
        * by rewrite !list_lookup_insert_ne by done.
  Qed.

  (** positions, keys and counts agree *)
  Definition linked (f : K → Z) s : Prop :=
    NoDup (pr_list s) ∧ length (pr_ranks s) = length (pr_list s) ∧
    ∀ i k, pr_list s !! i = Some k →
      dget (pr_items s) k = Some i ∧ pr_ranks s !! i = Some (f k).

  (** descending, except that the entry at [ix] may be too far right *)
  Definition desc_but (ix : nat) (r : list Z) : Prop :=
    ∀ i j a b, (i < j)%nat → j ≠ ix → r !! i = Some a → r !! j = Some b → b <= a.
  Definition desc (r : list Z) : Prop :=
    ∀ i j a b, (i < j)%nat → r !! i = Some a → r !! j = Some b → b <= a.

  Lemma bubble_spec f k ix s :
    linked f s → pr_list s !! ix = Some k → desc_but ix (pr_ranks s) →
    linked f (bubble k ix s) ∧ pr_list (bubble k ix s) ≡ₚ pr_list s ∧
    desc (pr_ranks (bubble k ix s)).
  Proof.
    revert s. induction ix as [|j IH]; intros s (Hnd & Hlen & Hl) Hk Hd; cbn [bubble].
    { split; [done|]. split; [done|]. intros i j a b Hij. apply Hd; [done|lia]. }
    destruct (Hl _ _ Hk) as [Hg Hr]. rewrite Hr.
    destruct (pr_list s !! j) as [old|] eqn:Hj.
    2:{ apply lookup_ge_None in Hj. apply lookup_lt_Some in Hk. lia. }
    destruct (Hl _ _ Hj) as [Hgj Hrj]. rewrite Hrj.
    assert (old ≠ k) as Hne.
    { intros ->. pose proof (NoDup_lookup _ _ _ _ Hnd Hj Hk). lia. }
    destruct (f old <? f k) eqn:E.
    2:{ split; [done|]. split; [done|]. intros i m a b Him Ha Hb.
        destruct (decide (m = S j)) as [->|Hm]; [|by eapply Hd].
        rewrite Hr in Hb. injection Hb as <-.
        destruct (decide (i = j)) as [->|Hi].
        - rewrite Hrj in Ha. injection Ha as <-. lia.
        - assert (f old <= a); [|lia]. eapply (Hd i j); eauto; lia. }
    assert (S j ≠ j) as Hsj by lia.
    pose proof (λ m, swap_lookup (pr_list s) (S j) j k old m Hsj Hk Hj) as Hsp.
    pose proof (λ m, swap_lookup (pr_ranks s) (S j) j (f k) (f old) m Hsj Hr Hrj) as Hsr.
    assert (swap (pr_list s) (S j) j !! S j = Some old) as Hold.
    { rewrite Hsp. rewrite decide_False by lia. by rewrite decide_True by lia. }
    rewrite Hold.
    match goal with |- context [bubble k j ?s'] => set (s2 := s') end.
    destruct (IH s2) as (H1 & H2 & H3).
    - split_and!; subst s2; cbn [pr_list pr_ranks pr_items].
      + by rewrite swap_perm.
      + rewrite (Permutation_length (swap_perm (pr_list s) (S j) j Hsj)).
        by rewrite (Permutation_length (swap_perm (pr_ranks s) (S j) j Hsj)).
      + intros i k' Hi. rewrite Hsp in Hi. rewrite Hsr. rewrite !dget_dset.
        destruct (decide (i = j)) as [->|Hij].
        { injection Hi as <-. by rewrite decide_True. }
        destruct (decide (i = S j)) as [->|Hij'].
        { injection Hi as <-. rewrite decide_False by done. by rewrite decide_True. }
        destruct (Hl _ _ Hi) as [Hgi Hri].
        rewrite decide_False.
        2:{ intros ->. rewrite Hg in Hgi. congruence. }
        rewrite decide_False.
        2:{ intros ->. rewrite Hgj in Hgi. congruence. }
        done.
    - subst s2. cbn [pr_list]. rewrite Hsp. by rewrite decide_True.
    - subst s2. cbn [pr_ranks]. intros i m a b Him Hm Ha Hb. rewrite Hsr in Ha, Hb.
      rewrite (decide_False (P := m = j)) in Hb by done.
      destruct (decide (i = j)) as [->|Hij], (decide (m = S j)) as [->|Hmj];
        rewrite ?decide_True in * by done.
      + injection Ha as <-. injection Hb as <-. lia.
      + injection Ha as <-. eapply (Hd (S j) m); eauto. lia.
      + injection Hb as <-. rewrite decide_False in Ha by lia.
        eapply (Hd i j); eauto; lia.
      + destruct (decide (i = S j)) as [->|?].
        * injection Ha as <-. eapply (Hd j m); eauto. lia.
        * eapply (Hd i m); eauto.
    - split; [done|]. split; [|done]. rewrite H2. subst s2. cbn [pr_list]. by apply swap_perm.
  Qed.

  (** after any history of matches *)
  Definition rank_ok (items : list K) (hist : list K) s : Prop :=
    linked (λ k, count_if (λ k', k' = k) hist) s ∧ pr_list s ≡ₚ items ∧ desc (pr_ranks s).

  Lemma items_dict (l : list K) (d : list (K * nat)) n :
    NoDup l → (∀ i k, l !! i = Some k →
      dget (fold_left (λ d p, dset d p.1 p.2) (zip l (seq n (length l))) d) k = Some (n + i)%nat) ∧
    (∀ k, k ∉ l → dget (fold_left (λ d p, dset d p.1 p.2) (zip l (seq n (length l))) d) k = dget d k).
  Proof.
    revert d n. induction l as [|x l IH]; intros d n Hnd; [done|].
    apply list.NoDup_cons in Hnd as [Hx Hnd]. cbn [length seq zip zip_with fold_left fst snd].
    destruct (IH (dset d x n) (S n) Hnd) as [H1 H2]. split.
    - intros [|i] k Hk; simpl in Hk.
      + injection Hk as <-. rewrite H2 by done. rewrite dget_dset, decide_True by done. f_equal. lia.
      + rewrite (H1 _ _ Hk). f_equal. lia.
    - intros k [Hkx Hkl]%not_elem_of_cons. rewrite H2 by done. rewrite dget_dset.
      by rewrite decide_False by done.
  Qed.

  Lemma rank_new_ok items : NoDup items → rank_ok items [] (prank_new items).
  Proof.
    intros Hnd. split; [|split; [done|]].
    - split_and!; [done| |].
      + cbn. by rewrite map_length.
      + cbn. intros i k Hi. split.
        * by apply (proj1 (items_dict items [] 0 Hnd)).
        * change (map (λ _, 0) items) with ((λ _, 0) <$> items). rewrite list_lookup_fmap, Hi. done.
    - cbn. intros i j a b _ Ha Hb. change (map (λ _, 0) items) with ((λ _ : K, 0) <$> items) in *.
      rewrite list_lookup_fmap in Ha, Hb.
      apply fmap_Some in Ha as (? & _ & ->). apply fmap_Some in Hb as (? & _ & ->). lia.
  Qed.

  Lemma rank_match_ok items hist s k :
    rank_ok items hist s → k ∈ items →
    ∃ s', prank_match s k = Ok s' ∧ rank_ok items (hist ++ [k]) s'.
  Proof.
    intros ((Hnd & Hlen & Hl) & Hp & Hd) Hk.
    assert (k ∈ pr_list s) as Hk' by (by rewrite Hp).
    apply elem_of_list_lookup in Hk' as [ix Hix]. destruct (Hl _ _ Hix) as [Hg Hr].
    unfold prank_match. rewrite Hg.
    match goal with |- context [bubble k ix ?s'] => set (s2 := s') end.
    assert (∀ k', count_if (λ x, x = k') (hist ++ [k])
                  = count_if (λ x, x = k') hist + if decide (k = k') then 1 else 0) as Hc.
    { intros k'. unfold count_if. rewrite list.filter_app, app_length.
      rewrite (filter_cons _ k []). destruct (decide (k = k')); simpl; lia. }
    destruct (bubble_spec (λ k', count_if (λ x, x = k') (hist ++ [k])) k ix s2) as (H1 & H2 & H3).
    - split_and!; subst s2; cbn [pr_list pr_ranks pr_items].
      + done.
      + by rewrite alter_length.
      + intros i k' Hi. destruct (Hl _ _ Hi) as [Hgi Hri]. split; [done|]. rewrite Hc.
        destruct (decide (k = k')) as [<-|Hne].
        * assert (i = ix) as -> by (by eapply NoDup_lookup).
          by rewrite list_lookup_alter, Hri.
        * rewrite list_lookup_alter_ne; [by rewrite Hri, Z.add_0_r|]. intros <-. congruence.
    - done.
    - subst s2. cbn [pr_ranks]. intros i j a b Hij Hj Ha Hb.
      rewrite list_lookup_alter_ne in Hb by done.
      destruct (decide (i = ix)) as [->|Hi].
      + rewrite list_lookup_alter in Ha. apply fmap_Some in Ha as (a' & Ha' & ->).
        pose proof (Hd _ _ _ _ Hij Ha' Hb). lia.
      + rewrite list_lookup_alter_ne in Ha by done. by eapply Hd.
    - eexists. split; [reflexivity|]. split; [done|]. split; [|done].
      rewrite H2. subst s2. cbn [pr_list]. done.
  Qed.

  Lemma rank_history items hist :
    NoDup items → Forall (λ k, k ∈ items) hist →
    ∃ s, fold_left (λ acc k, res_bind acc (λ s, prank_match s k)) hist (Ok (prank_new items)) = Ok s ∧
         rank_ok items hist s.
  Proof.
    intros Hnd. induction hist as [|k hist IH] using rev_ind; intros Hf.
    { exists (prank_new items). split; [done|]. by apply rank_new_ok. }
    apply list.Forall_app in Hf as [Hf Hk]. apply list.Forall_cons in Hk as [Hk _].
    destruct (IH Hf) as (s & Hs & Hok).
    destruct (rank_match_ok items hist s k Hok Hk) as (s' & Hs' & Hok').
    exists s'. split; [|done]. rewrite fold_left_app. rewrite Hs. simpl. done.
  Qed.
End PyRank.

(** ** Nim *)
Section Sort.
  Context {A : Type} (key : A → Z) (cmp : A → A → bool).

  Lemma insert_left_perm v l : insert_left cmp v l ≡ₚ v :: l.
  Proof.
    induction l as [|x l IH]; cbn [insert_left]; [done|].
    destruct (cmp v x); [|done]. rewrite IH. apply Permutation_swap.
  Qed.

  Definition asc (l : list A) : Prop :=
    ∀ i j a b, (i < j)%nat → l !! i = Some a → l !! j = Some b → key a <= key b.

  Lemma asc_cons x l : asc (x :: l) ↔ asc l ∧ ∀ y, y ∈ l → key x <= key y.
  Proof.
    split.
    - intros H. split.
      + intros i j a b Hij Ha Hb. eapply (H (S i) (S j)); eauto. lia.
      + intros y [j Hj]%elem_of_list_lookup. eapply (H 0%nat (S j)); eauto. lia.
    - intros [H1 H2] [|i] [|j] a b Hij Ha Hb; simpl in *; try lia.
      + injection Ha as <-. apply H2. by eapply elem_of_list_lookup_2.
      + eapply (H1 i j); eauto. lia.
  Qed.

  Lemma insert_left_asc v l :
    (∀ x, x ∈ l → cmp v x = (key x <? key v)) → asc l → asc (insert_left cmp v l).
  Proof.
    intros Hc. induction l as [|x l IH]; intros Hl; cbn [insert_left].
    { apply asc_cons. split; [done|]. intros y Hy. by apply elem_of_nil in Hy. }
    apply asc_cons in Hl as Hl'. destruct Hl' as [Hl' Hx].
    rewrite Hc by left. destruct (key x <? key v) eqn:E.
    - apply asc_cons. split.
      + apply IH; [|done]. intros y Hy. apply Hc. by right.
      + intros y Hy. rewrite insert_left_perm in Hy. apply elem_of_cons in Hy as [->|Hy]; [lia|].
        by apply Hx.
    - apply asc_cons. split; [done|]. intros y [->|Hy]%elem_of_cons; [lia|].
      pose proof (Hx y Hy). lia.
  Qed.

  (** the comparator agrees with the key on different elements of [l] *)
  Definition agrees (l : list A) : Prop :=
    ∀ i j a b, i ≠ j → l !! i = Some a → l !! j = Some b → cmp a b = (key b <? key a).

  Lemma insertSort_fold_perm l acc : fold_left (λ acc v, insert_left cmp v acc) l acc ≡ₚ l ++ acc.
  Proof.
    revert acc. induction l as [|v l IH]; intros acc; cbn [fold_left]; [done|].
    rewrite IH, insert_left_perm. simpl. by rewrite <- Permutation_middle.
  Qed.

  Lemma insertSort_perm l : insertSort cmp l ≡ₚ l.
  Proof. unfold insertSort. rewrite <- Permutation_rev, insertSort_fold_perm. by rewrite app_nil_r. Qed.

  Lemma insertSort_fold_asc l pre acc :
    agrees (pre ++ l) → acc ≡ₚ pre → asc acc →
    asc (fold_left (λ acc v, insert_left cmp v acc) l acc).
  Proof.
    revert pre acc. induction l as [|v l IH]; intros pre acc Ha Hp Hs; cbn [fold_left]; [done|].
    apply (IH (pre ++ [v])).
    - by rewrite <- app_assoc.
    - rewrite insert_left_perm, Hp. by rewrite <- Permutation_cons_append.
    - apply insert_left_asc; [|done]. intros x Hx. rewrite Hp in Hx.
      apply elem_of_list_lookup in Hx as [j Hj]. apply lookup_lt_Some in Hj as Hlt.
      eapply (Ha (length pre) j); [lia| |].
      + rewrite lookup_app_r by lia. by rewrite Nat.sub_diag.
      + by rewrite lookup_app_l by lia.
  Qed.

  Lemma insertSort_sorted l i j a b :
    agrees l → (i < j)%nat → insertSort cmp l !! i = Some a → insertSort cmp l !! j = Some b →
    key b <= key a.
  Proof.
    intros Ha Hij Hi Hj. unfold insertSort in *.
    assert (asc (fold_left (λ acc v, insert_left cmp v acc) l [])) as Hs.
    { apply (insertSort_fold_asc l []); [done|done|]. intros ? ? ? ? ? [=]. }
    set (r := fold_left _ l []) in *.
    assert (∀ n x, rev r !! n = Some x → (n < length r)%nat ∧ r !! (length r - S n)%nat = Some x) as Hr.
    { intros n x Hn. apply lookup_lt_Some in Hn as Hlt. rewrite rev_length in Hlt. split; [done|].
      rewrite rev_alt in Hn. change (rev_append r []) with (reverse r) in Hn.
      by rewrite reverse_lookup in Hn. }
    apply Hr in Hi as [? Hi]. apply Hr in Hj as [? Hj].
    eapply (Hs (length r - S j)%nat (length r - S i)%nat); eauto. lia.
  Qed.
End Sort.

Definition rkey (e : ntype * Z) : Z :=
  if bool_decide (e.1 = DT_STRING) then Z.min e.2 1
  else if 0 <? e.2 then e.2 + 1 else 0.

Lemma cmp_rkey a b :
  0 <= a.2 → 0 <= b.2 → a.1 ≠ b.1 → cmpDtypesStringless a b = (rkey b <? rkey a).
Proof.
  destruct a as [t n], b as [u m]; cbn [fst snd]. intros Hn Hm Hne.
  unfold cmpDtypesStringless, cmpDtypes, rkey. cbn [fst snd].
  destruct (bool_decide (t = DT_STRING)) eqn:Et, (bool_decide (u = DT_STRING)) eqn:Eu.
  - apply bool_decide_eq_true in Et, Eu. congruence.
  - destruct (0 <? m) eqn:?; simpl; lia.
  - destruct (0 <? n) eqn:?; simpl; lia.
  - simpl. destruct (0 <? n) eqn:?, (0 <? m) eqn:?; lia.
Qed.

(** the state after strings [vs] with answers [dts] *)
Definition nrank_ok (dts : list ntype) (r : nrank) : Prop :=
  r.*1 ≡ₚ all_ntypes ∧
  (∀ t n, (t, n) ∈ r → n = count_if (λ u, u = t) dts) ∧
  (∀ i j a b, (i < j)%nat → r !! i = Some a → r !! j = Some b → rkey b <= rkey a).

Lemma all_ntypes_NoDup : NoDup all_ntypes.
Proof. apply (bool_decide_unpack _). by vm_compute. Qed.

Lemma newRank_ok : nrank_ok [] newRank.
Proof.
  assert (∀ t n, (t, n) ∈ newRank → n = 0) as H0.
  { intros t n H. unfold newRank in H. apply elem_of_list_fmap in H as (u & Hu & _). congruence. }
  split_and!.
  - by vm_compute.
  - intros t n H. by apply H0 in H.
  - intros i j [t n] [u m] _ Hi Hj.
    apply elem_of_list_lookup_2, H0 in Hi. apply elem_of_list_lookup_2, H0 in Hj. subst.
    unfold rkey. cbn [fst snd]. repeat case_bool_decide; done.
Qed.

Section Nim.
  Context {V : Type} (fits : ntype → V → bool).

  Lemma updateRank_ok dts r v :
    nrank_ok dts r →
    let '(dt, r') := updateRank fits r v in
    (dt = DT_STRING ∨ fits dt v = true) ∧ nrank_ok (dts ++ [dt]) r'.
  Proof.
    unfold nrank, nrank_ok in *. intros (Hp & Hc & Hs). unfold updateRank, nrank in *.
    assert (NoDup r.*1) as Hnd by (rewrite Hp; apply all_ntypes_NoDup).
    set (acc := λ e : ntype * Z, Is_true (bool_decide (e.1 = DT_STRING) || fits e.1 v)).
    match goal with |- context [list_find ?Q ?l] =>
      destruct (list_find Q l) as [[k [dt cnt]]|] eqn:E end.
    2:{ exfalso. apply list_find_None in E.
        assert (DT_STRING ∈ r.*1) as Hin.
        { rewrite Hp. do 14 right. left. }
        apply elem_of_list_fmap in Hin as ([t n] & Ht & Hin). simpl in Ht. subst t.
        pose proof (proj1 (list.Forall_forall _ _) E _ Hin) as H0. cbn beta in H0.
        by apply H0. }
    apply list_find_Some in E as (Hk & Hacc & _).
    split.
    { apply Is_true_true in Hacc. cbn [fst] in Hacc. apply orb_true_iff in Hacc as [Hb|?]; [|by right].
      left. by apply bool_decide_eq_true in Hb. }
    set (r2 := <[k := (dt, cnt + 1)]> r).
    pose proof (insertSort_perm cmpDtypesStringless r2) as Hperm.
    assert (r2.*1 = r.*1) as Hfst.
    { subst r2. rewrite list_fmap_insert. cbn [fst]. apply list_insert_id.
      by rewrite list_lookup_fmap, Hk. }
    assert (NoDup r2.*1) as Hnd2 by (by rewrite Hfst).
    assert (∀ u, count_if (λ x, x = u) (dts ++ [dt])
                  = count_if (λ x, x = u) dts + if decide (dt = u) then 1 else 0) as Hcount.
    { intros u. unfold count_if. rewrite list.filter_app, app_length.
      rewrite (filter_cons _ dt []). destruct (decide (dt = u)); simpl; lia. }
    assert (∀ t n, (t, n) ∈ r2 → n = count_if (λ u, u = t) (dts ++ [dt])) as Hc2.
    { intros t n Hin. apply elem_of_list_lookup in Hin as [i Hi]. rewrite Hcount.
      subst r2. destruct (decide (i = k)) as [->|Hne].
      - rewrite list_lookup_insert in Hi by (by eapply lookup_lt_Some). injection Hi as <- <-.
        rewrite decide_True by done. f_equal. apply Hc. by eapply elem_of_list_lookup_2.
      - rewrite list_lookup_insert_ne in Hi by done.
        rewrite decide_False.
        + rewrite Z.add_0_r. apply Hc. by eapply elem_of_list_lookup_2.
        + intros <-. apply Hne.
          eapply (NoDup_lookup r.*1); [done| |]; rewrite list_lookup_fmap.
          * by rewrite Hi. * by rewrite Hk. }
    split_and!.
    - rewrite (fmap_Permutation fst _ _ Hperm). by rewrite Hfst.
    - intros t n Hin. rewrite Hperm in Hin. by apply Hc2.
    - intros i j a b Hij Ha Hb. eapply (insertSort_sorted rkey); [|done|done|done].
      clear -Hc2 Hnd2. intros i j [t n] [u m] Hij Hi Hj. apply cmp_rkey; cbn [fst snd].
      + apply elem_of_list_lookup_2, Hc2 in Hi. subst. unfold count_if. lia.
      + apply elem_of_list_lookup_2, Hc2 in Hj. subst. unfold count_if. lia.
      + intros ->. apply Hij. eapply (NoDup_lookup r2.*1); [done| |]; rewrite list_lookup_fmap.
        * by rewrite Hi. * by rewrite Hj.
  Qed.

  Lemma runRank_ok vs :
    let '(dts, r) := runRank fits vs in
    nrank_ok dts r ∧ Forall2 (λ v dt, dt = DT_STRING ∨ fits dt v = true) vs dts.
  Proof.
    induction vs as [|v vs IH] using rev_ind.
    { cbn. split; [apply newRank_ok|constructor]. }
    unfold runRank in *. rewrite fold_left_app. cbn [fold_left].
    destruct (fold_left _ vs _) as [dts r]. cbn [fst snd]. destruct IH as [IH1 IH2].
    pose proof (updateRank_ok dts r v IH1) as H.
    destruct (updateRank fits r v) as [dt r']. destruct H as [H1 H2]. split; [done|].
    apply Forall2_app; [done|]. by constructor.
  Qed.

  (** in plain words *)
  Lemma runRank_spec vs dts r :
    runRank fits vs = (dts, r) →
    Forall2 (λ v dt, dt = DT_STRING ∨ fits dt v = true) vs dts ∧
    r.*1 ≡ₚ all_ntypes ∧
    (∀ t n, (t, n) ∈ r → n = count_if (λ u, u = t) dts) ∧
    (∀ i j t n u m, (i < j)%nat → r !! i = Some (t, n) → r !! j = Some (u, m) →
       (t ≠ DT_STRING → u ≠ DT_STRING → m <= n) ∧
       (t = DT_STRING → m = 0) ∧
       (u = DT_STRING → 0 < m → 0 < n)).
  Proof.
    unfold nrank in *. intros E. pose proof (runRank_ok vs) as H. rewrite E in H. unfold nrank_ok, nrank in H.
    destruct H as [(Hp & Hc & Hs) HF]. split_and!; [done|done|done|].
    intros i j t n u m Hij Hi Hj. pose proof (Hs _ _ _ _ Hij Hi Hj) as Hle.
    assert (0 <= n ∧ 0 <= m) as [Hn Hm].
    { apply elem_of_list_lookup_2, Hc in Hi. apply elem_of_list_lookup_2, Hc in Hj.
      subst. unfold count_if. lia. }
    assert (t ≠ u) as Hne.
    { intros ->. assert (i = j); [|lia].
      eapply (NoDup_lookup r.*1); [rewrite Hp; apply all_ntypes_NoDup| |]; rewrite list_lookup_fmap.
      - by rewrite Hi. - by rewrite Hj. }
    unfold rkey in Hle. cbn [fst snd] in Hle.
    destruct (bool_decide (t = DT_STRING)) eqn:Et, (bool_decide (u = DT_STRING)) eqn:Eu;
      rewrite ?bool_decide_eq_true, ?bool_decide_eq_false in *; subst; try done;
      destruct (0 <? n) eqn:?; destruct (0 <? m) eqn:?; split_and!; intros; try done; lia.
  Qed.
End Nim.

(** strings are not sorted by count *)
Lemma nim_rank_not_sorted :
  let r := (runRank (λ t (v : bool), bool_decide (t = DT_INT_SIMPLE) && v) [true; false; false]).2 in
  r !! 0%nat = Some (DT_INT_SIMPLE, 1) ∧ r !! 1%nat = Some (DT_STRING, 2).
Proof. by vm_compute. Qed.

Lemma nim_rank_unsorted :
  ∃ V (fits : ntype → V → bool) vs i j t n u m,
    (i < j)%nat ∧ (runRank fits vs).2 !! i = Some (t, n) ∧ (runRank fits vs).2 !! j = Some (u, m) ∧ n < m.
Proof.
  destruct nim_rank_not_sorted as [H1 H2].
  eexists bool, _, _, 0%nat, 1%nat, _, _, _, _. split_and!; [lia|exact H1|exact H2|lia].
Qed.

Lemma rank_history_plain {K} `{EqDecision K} (items hist : list K) :
  NoDup items → Forall (λ k, k ∈ items) hist →
  ∃ s, fold_left (λ acc k, res_bind acc (λ s, prank_match s k)) hist (Ok (prank_new items)) = Ok s ∧
    pr_list s ≡ₚ items ∧
    length (pr_ranks s) = length (pr_list s) ∧
    (∀ i k, pr_list s !! i = Some k → pr_ranks s !! i = Some (count_if (λ k', k' = k) hist)) ∧
    (∀ i j a b, (i < j)%nat → pr_ranks s !! i = Some a → pr_ranks s !! j = Some b → b <= a).
Proof.
  intros Hnd Hf. destruct (rank_history items hist Hnd Hf) as (s & Hs & (_ & Hlen & Hl) & Hp & Hd).
  exists s. split_and!; try done. intros i k Hi. by apply Hl.
Qed.
