(** The aggregates of groupby. *)
From stdpp Require Import strings.
From Coq Require Import Lqa Qfield ZifyBool Sorted.
From Verif.Spec Require Import Statistics PySort.
From Verif.Proof Require Import StatsProofs.
From Verif.Spec Require Import Groupby.
From Verif.Model Require Import Groupby.
From Verif.Proof Require Import DictLemmas JoinBase ReduxProofs GroupbyProofs.
Local Open Scope Z_scope.

(** ** exact arithmetic *)
Lemma this_plus a b : (this (a + b)%Qc == this a + this b)%Q.
Proof. apply Qred_correct. Qed.
Lemma this_mult a b : (this (a * b)%Qc == this a * this b)%Q.
Proof. apply Qred_correct. Qed.
Lemma this_opp a : (this (- a)%Qc == - this a)%Q.
Proof. apply Qred_correct. Qed.
Lemma this_minus a b : (this (a - b)%Qc == this a - this b)%Q.
Proof. unfold Qcminus. rewrite this_plus, this_opp. reflexivity. Qed.
Lemma this_inv a : (this (/ a)%Qc == / this a)%Q.
Proof. apply Qred_correct. Qed.
Lemma this_div a b : (this (a / b)%Qc == this a / this b)%Q.
Proof. unfold Qcdiv. rewrite this_mult, this_inv. reflexivity. Qed.
Lemma this_Z z : (this (Qc_of_Z z) == inject_Z z)%Q.
Proof. reflexivity. Qed.

Lemma numerals_snoc l v qs : numerals (l ++ [v]) qs → ∃ qs' q, qs = qs' ++ [q] ∧ numerals l qs' ∧ numeral v = Some q.
Proof.
  intros H. apply Forall2_app_inv_l in H as (qs' & k & H1 & H2 & ->).
  apply Forall2_cons_inv_l in H2 as (q & k' & Hq & Hn & ->). apply Forall2_nil_inv_l in Hn as ->. eauto.
Qed.
Lemma numeral_sum v q : numeral v = Some q → sum_term v = Ok q ∧ float_term v = Ok q.
Proof. destruct v; cbn; try done; by intros [= ->]. Qed.

Notation tq := (map this).

Lemma sum_run l qs : numerals l qs → ∃ s, run_state Sum l = Ok (GSum s) ∧ (this s == qsum (tq qs))%Q.
Proof.
  revert qs. induction l as [|v l IH] using rev_ind; intros qs H.
  - apply Forall2_nil_inv_l in H as ->. by eexists.
  - apply numerals_snoc in H as (qs' & q & -> & H & Hq). destruct (IH _ H) as (s & Hs & Hqs).
    rewrite run_state_snoc, Hs. cbn. destruct (numeral_sum v q Hq) as [-> _]. cbn. eexists. split; [done|].
    rewrite this_plus, Hqs, map_app, qsum_app. cbn. ring.
Qed.
Lemma qprod_app a b : (qprod (a ++ b) == qprod a * qprod b)%Q.
Proof. unfold qprod. induction a as [|x a IH]; simpl; [ring|]. rewrite IH. ring. Qed.
Lemma product_run l qs : numerals l qs → ∃ s, run_state Product l = Ok (GProduct s) ∧ (this s == qprod (tq qs))%Q.
Proof.
  revert qs. induction l as [|v l IH] using rev_ind; intros qs H.
  - apply Forall2_nil_inv_l in H as ->. by eexists.
  - apply numerals_snoc in H as (qs' & q & -> & H & Hq). destruct (IH _ H) as (s & Hs & Hqs).
    rewrite run_state_snoc, Hs. cbn. destruct (numeral_sum v q Hq) as [-> _]. cbn. eexists. split; [done|].
    rewrite this_mult, Hqs, map_app, qprod_app. cbn. ring.
Qed.
Lemma average_run l qs : numerals l qs →
  ∃ s a, run_state Average l = Ok (GAverage s (zlen l) a) ∧ (this s == qsum (tq qs))%Q ∧
    (l ≠ [] → (this a == qmean (tq qs))%Q).
Proof.
  revert qs. induction l as [|v l IH] using rev_ind; intros qs H.
  - apply Forall2_nil_inv_l in H as ->. eexists _, _. split; [done|]. by split.
  - apply numerals_snoc in H as (qs' & q & -> & H & Hq). destruct (IH _ H) as (s & a & Hs & Hqs & _).
    rewrite run_state_snoc, Hs. cbn. destruct (numeral_sum v q Hq) as [_ ->]. cbn.
    replace (zlen (l ++ [v])) with (zlen l + 1) by (rewrite app_length; cbn; lia).
    eexists _, _. split; [done|].
    assert (Hsum : (this (s + q)%Qc == qsum (tq (qs' ++ [q])))%Q).
    { rewrite this_plus, Hqs, map_app, qsum_app. cbn. ring. }
    split; [done|]. intros _. rewrite this_div, this_Z, Hsum. unfold qmean. f_equiv. unfold qlen.
    rewrite map_length, app_length. apply Forall2_length in H. cbn. rewrite H. f_equiv. lia.
Qed.

Lemma stdev_run l qs : numerals l qs →
  ∃ m c, run_state StandardDeviation l = Ok (GStdDev (zlen l) m c) ∧
    (this m * inject_Z (zlen l) == qsum (tq qs))%Q ∧
    (this c == qsum (map (λ x, x * x) (tq qs)) - inject_Z (zlen l) * this m * this m)%Q.
Proof.
  revert qs. induction l as [|v l IH] using rev_ind; intros qs H.
  - apply Forall2_nil_inv_l in H as ->. eexists _, _. split; [done|]. done.
  - apply numerals_snoc in H as (qs' & q & -> & H & Hq). destruct (IH _ H) as (m & c & Hs & Hm & Hc).
    rewrite run_state_snoc, Hs. cbn. destruct (numeral_sum v q Hq) as [_ ->]. cbn.
    replace (zlen (l ++ [v])) with (zlen l + 1) by (rewrite app_length; cbn; lia).
    eexists _, _. split; [done|].
    set (n := inject_Z (zlen l)) in *.
    assert (Hn : (inject_Z (zlen l + 1) == n + 1)%Q) by (rewrite inject_Z_plus; reflexivity).
    assert (Hpos : ~ (n + 1 == 0)%Q).
    { rewrite <- Hn. intros E. change 0%Q with (inject_Z 0) in E. rewrite inject_Z_injective in E. lia. }
    assert (Hm' : (this (m + (q - m) / Qc_of_Z (zlen l + 1))%Qc == this m + (this q - this m) / (n + 1))%Q).
    { rewrite this_plus, this_div, this_minus, this_Z, Hn. reflexivity. }
    rewrite Hm', Hn. split.
    + rewrite map_app, qsum_app, <- Hm. cbn. field. done.
    + rewrite this_plus, this_mult, !this_minus, Hm', Hc, !map_app, qsum_app. cbn. field. done.
Qed.

(** ** counting *)
Lemma count_run l : run_state Count l = Ok (GCount (zlen l)).
Proof.
  induction l as [|v l IH] using rev_ind; [done|]. rewrite run_state_snoc, IH. cbn. f_equal. f_equal.
  rewrite app_length. cbn. lia.
Qed.

Lemma same_as_eq repr x y : native x = true → native y = true → nim_cmp repr FM_EQ x y = bool_decide (same_as x = same_as y).
Proof.
  intros Hx Hy.
  assert (HS : ∀ a b, ord_test FM_EQ (String.compare a b) = bool_decide (VStr a = VStr b)).
  { intros a b. destruct (String.compare a b) eqn:E; cbn.
    - apply string_compare_eq in E as ->. by rewrite bool_decide_true.
    - rewrite bool_decide_false; [done|]. intros [= ->]. rewrite (proj2 (string_compare_eq b b) eq_refl) in E. done.
    - rewrite bool_decide_false; [done|]. intros [= ->]. rewrite (proj2 (string_compare_eq b b) eq_refl) in E. done. }
  assert (HZ : ∀ (C : Z → pyval) a b, (∀ a b, C a = C b → a = b) → ord_test FM_EQ (a ?= b) = bool_decide (C a = C b)).
  { intros C a b HC. destruct (Z.compare_spec a b) as [->|Hlt|Hlt]; cbn.
    - by rewrite bool_decide_true.
    - rewrite bool_decide_false; [done|]. intros ?%HC. lia.
    - rewrite bool_decide_false; [done|]. intros ?%HC. lia. }
  assert (HQ : ∀ a b, ord_test FM_EQ (a ?= b)%Qc = bool_decide (VFloat a = VFloat b)).
  { intros a b. destruct (Qccompare a b) eqn:E; cbn.
    - apply Qceq_alt in E as ->. by rewrite bool_decide_true.
    - rewrite bool_decide_false; [done|]. intros [= ->]. apply Qclt_alt in E. by apply Qclt_not_eq in E.
    - rewrite bool_decide_false; [done|]. intros [= ->]. apply Qcgt_alt in E. by apply Qclt_not_eq in E. }
  assert (Hday : ∀ a b, day_us * a = day_us * b → a = b) by (unfold day_us; intros; lia).
  assert (HF : ∀ P `{Decision P}, ¬ P → false = bool_decide P) by (intros; by rewrite bool_decide_false).
  destruct x, y; try done; cbn [nim_cmp native_order same_as];
    try (apply HF; done); try apply HS; try apply HQ; try (apply HZ; congruence).
  - destruct b, b0; done.
  - rewrite (HZ VInt) by congruence. destruct (decide (z = z0)) as [->|Hne].
    + by rewrite !bool_decide_true.
    + rewrite !bool_decide_false; [done| |congruence]. intros [= E]. done.
Qed.

Lemma count_unique_run l : Forall (λ v, native v = true) l →
  ∃ items, run_state CountUnique l = Ok (GCountUnique items (zlen items)) ∧
    Forall (λ v, native v = true) items ∧ map same_as items = distinct (map same_as l).
Proof.
  induction l as [|v l IH] using rev_ind; intros Hn; [by exists []|].
  apply Forall_app in Hn as [Hn Hv]. apply list.Forall_cons in Hv as [Hv _].
  destruct (IH Hn) as (items & Hs & Hi & Hd). rewrite run_state_snoc, Hs. cbn [res_bind update]. cbv zeta.
  rewrite map_app. cbn [map]. rewrite distinct_snoc, <- Hd.
  assert (Hex : existsb (λ i, nim_cmp (λ _, "") FM_EQ i v) items = bool_decide (same_as v ∈ map same_as items)).
  { apply eq_true_iff_eq. rewrite existsb_exists, bool_decide_eq_true, elem_of_list_fmap. split.
    - intros (i & Hin & He). apply elem_of_list_In in Hin.
      rewrite same_as_eq in He; [|exact (proj1 (list.Forall_forall _ _) Hi i Hin)|done].
      apply bool_decide_eq_true in He. by exists i.
    - intros (i & He & Hin). exists i. split; [by apply elem_of_list_In|].
      rewrite same_as_eq; [by rewrite bool_decide_true|exact (proj1 (list.Forall_forall _ _) Hi i Hin)|done]. }
  rewrite Hex. destruct (decide (same_as v ∈ map same_as items)).
  - rewrite bool_decide_true by done. by exists items.
  - rewrite bool_decide_false by done. exists (items ++ [v]). split; [done|]. split.
    + apply Forall_app. split; [done|]. by constructor.
    + by rewrite map_app.
Qed.

(** ** first and last *)
Lemma first_run v l : run_state First (v :: l) = Ok (GFirst true (Some v)).
Proof.
  induction l as [|w l IH] using rev_ind; [done|].
  rewrite (app_comm_cons l [w] v), run_state_snoc, IH. done.
Qed.
Lemma last_run l v : run_state Last (l ++ [v]) = Ok (GLast (Some v)).
Proof.
  assert (H : ∃ o, run_state Last l = Ok (GLast o)).
  { induction l as [|w l [o Ho]] using rev_ind; [by eexists|]. rewrite run_state_snoc, Ho. by eexists. }
  destruct H as [o Ho]. rewrite run_state_snoc, Ho. done.
Qed.

(** ** max and min *)
Lemma string_compare_le_trans a b c :
  String.compare a b ≠ Gt → String.compare b c ≠ Gt → String.compare a c ≠ Gt.
Proof.
  revert b c. induction a as [|x a IH]; intros [|y b] [|z c]; cbn; try done.
  unfold Ascii.compare.
  destruct (N.compare_spec (Ascii.N_of_ascii x) (Ascii.N_of_ascii y)) as [E|E|E];
  destruct (N.compare_spec (Ascii.N_of_ascii y) (Ascii.N_of_ascii z)) as [F|F|F];
  destruct (N.compare_spec (Ascii.N_of_ascii x) (Ascii.N_of_ascii z)) as [G|G|G]; try done; try lia; apply IH.
Qed.

Lemma at_most_trans x y z : at_most x y → at_most y z → at_most x z.
Proof.
  destruct x, y; try done; destruct z; try done; cbn.
  - tauto.
  - lia.
  - apply Qcle_trans.
  - apply string_compare_le_trans.
  - lia.
  - lia.
  - lia.
Qed.
Lemma at_most_refl x : native x = true → at_most x x.
Proof.
  destruct x; cbn; try done; intros _; try lia; try apply Qcle_refl.
  by rewrite (proj2 (string_compare_eq s s) eq_refl).
Qed.

Lemma order_at_most x y : native x = true → kind_of x = kind_of y →
  (nim_cmp (λ _, "") FM_GT x y = true → at_most y x) ∧ (nim_cmp (λ _, "") FM_GT x y = false → at_most x y) ∧
  (nim_cmp (λ _, "") FM_LT x y = true → at_most x y) ∧ (nim_cmp (λ _, "") FM_LT x y = false → at_most y x).
Proof.
  intros Hn Hk. destruct x, y; try done; cbn [nim_cmp native_order at_most].
  - destruct b, b0; done.
  - destruct (Z.compare_spec z z0); cbn; split_and!; intros ?; done || lia.
  - destruct (Qccompare q q0) eqn:E; cbn.
    + apply Qceq_alt in E as ->. split_and!; intros ?; done || apply Qcle_refl.
    + apply Qclt_alt, Qclt_le_weak in E. by split_and!.
    + apply Qcgt_alt, Qclt_le_weak in E. by split_and!.
  - rewrite (String.compare_antisym s0 s). destruct (String.compare s s0) eqn:E; by split_and!.
  - destruct (Z.compare_spec us us0); cbn; split_and!; intros ?; done || lia.
  - assert (day_us * d ?= day_us * d0 = (d ?= d0)) as ->.
    { unfold day_us. destruct (Z.compare_spec d d0), (Z.compare_spec (86400 * 1000000 * d) (86400 * 1000000 * d0)); lia || done. }
    destruct (Z.compare_spec d d0); cbn; split_and!; intros ?; done || lia.
  - destruct (Z.compare_spec us us0); cbn; split_and!; intros ?; done || lia.
Qed.

Lemma max_run l k : l ≠ [] → Forall (λ v, native v = true ∧ kind_of v = k) l →
  ∃ m, run_state Max l = Ok (GMax (Some m)) ∧ m ∈ l ∧ ∀ x, x ∈ l → at_most x m.
Proof.
  induction l as [|v l IH] using rev_ind; [done|]. intros _ [Hl Hv]%Forall_app.
  apply list.Forall_cons in Hv as [[Hn Hk] _]. rewrite run_state_snoc.
  destruct l as [|w l].
  - exists v. split; [done|]. split; [by left|]. intros x ->%elem_of_list_singleton. by apply at_most_refl.
  - destruct IH as (m & -> & Hm & Hmax); [done|done|]. cbn [res_bind update].
    destruct (proj1 (list.Forall_forall _ _) Hl m Hm) as [Hmn Hmk].
    unfold limit_run. rewrite decide_True by congruence. cbn [res_map].
    destruct (order_at_most v m Hn) as (H1 & H2 & _); [congruence|].
    destruct (nim_cmp _ FM_GT v m); eexists; (split; [done|]).
    + split; [apply elem_of_app; right; by left|].
      intros x [Hx| ->%elem_of_list_singleton]%elem_of_app; [|by apply at_most_refl].
      eapply at_most_trans; [by apply Hmax|by apply H1].
    + split; [apply elem_of_app; by left|].
      intros x [Hx| ->%elem_of_list_singleton]%elem_of_app; [by apply Hmax|by apply H2].
Qed.
Lemma min_run l k : l ≠ [] → Forall (λ v, native v = true ∧ kind_of v = k) l →
  ∃ m, run_state Min l = Ok (GMin (Some m)) ∧ m ∈ l ∧ ∀ x, x ∈ l → at_most m x.
Proof.
  induction l as [|v l IH] using rev_ind; [done|]. intros _ [Hl Hv]%Forall_app.
  apply list.Forall_cons in Hv as [[Hn Hk] _]. rewrite run_state_snoc.
  destruct l as [|w l].
  - exists v. split; [done|]. split; [by left|]. intros x ->%elem_of_list_singleton. by apply at_most_refl.
  - destruct IH as (m & -> & Hm & Hmin); [done|done|]. cbn [res_bind update].
    destruct (proj1 (list.Forall_forall _ _) Hl m Hm) as [Hmn Hmk].
    unfold limit_run. rewrite decide_True by congruence. cbn [res_map].
    destruct (order_at_most v m Hn) as (_ & _ & H1 & H2); [congruence|].
    destruct (nim_cmp _ FM_LT v m); eexists; (split; [done|]).
    + split; [apply elem_of_app; right; by left|].
      intros x [Hx| ->%elem_of_list_singleton]%elem_of_app; [|by apply at_most_refl].
      eapply at_most_trans; [by apply H1|by apply Hmin].
    + split; [apply elem_of_app; by left|].
      intros x [Hx| ->%elem_of_list_singleton]%elem_of_app; [by apply Hmin|by apply H2].
Qed.

(** ** the aggregates over whole lists *)
Section aggregates.
  Context (sqrt : Qc → Qc).
  Notation run := (run_acc sqrt).

  Lemma run_sum l qs : numerals l qs → ∃ s, run Sum l = Ok (VFloat s) ∧ (this s == qsum (tq qs))%Q.
  Proof using Type. intros H. destruct (sum_run l qs H) as (s & Hs & Hq). exists s. unfold run_acc. by rewrite Hs. Qed.
  Lemma run_product l qs : numerals l qs → ∃ s, run Product l = Ok (VFloat s) ∧ (this s == qprod (tq qs))%Q.
  Proof using Type. intros H. destruct (product_run l qs H) as (s & Hs & Hq). exists s. unfold run_acc. by rewrite Hs. Qed.
  Lemma run_average l qs : l ≠ [] → numerals l qs → ∃ s, run Average l = Ok (VFloat s) ∧ (this s == qmean (tq qs))%Q.
  Proof using Type.
    intros Hne H. destruct (average_run l qs H) as (s & a & Hs & _ & Ha). exists a. unfold run_acc. rewrite Hs.
    split; [done|]. by apply Ha.
  Qed.
  Lemma run_stdev l qs : numerals l qs →
    ((length l <= 1)%nat → run StandardDeviation l = Ok (VFloat 0%Qc)) ∧
    ((2 <= length l)%nat → ∃ w, run StandardDeviation l = Ok (VFloat (sqrt w)) ∧ (this w == qvar (tq qs))%Q).
  Proof using Type.
    intros H. destruct (stdev_run l qs H) as (m & c & Hs & Hm & Hc). unfold run_acc. rewrite Hs. cbn [res_bind value_of].
    split; intros Hlen.
    - assert (zlen l <=? 1 = true) as -> by lia. done.
    - assert (zlen l <=? 1 = false) as -> by lia. eexists. split; [done|].
      assert (Hl : length (tq qs) = length l) by (rewrite map_length; symmetry; by apply Forall2_length in H).
      assert (Hpos : ~ (inject_Z (zlen l) == 0)%Q).
      { intros E. change 0%Q with (inject_Z 0) in E. rewrite inject_Z_injective in E. lia. }
      rewrite this_div, this_Z. unfold qvar. f_equiv.
      + assert (Hmean : (this m == qmean (tq qs))%Q).
        { unfold qmean, qlen. rewrite Hl, <- Hm. field. done. }
        rewrite sq_dev. cbn zeta. rewrite Hc, Hmean. unfold qlen. rewrite Hl. rewrite <- Hm, Hmean. ring.
      + unfold qlen. rewrite Hl. unfold Z.sub. rewrite inject_Z_plus, inject_Z_opp. reflexivity.
  Qed.
  Lemma run_count l : run Count l = Ok (VInt (zlen l)).
  Proof using Type. unfold run_acc. by rewrite count_run. Qed.
  Lemma run_count_unique l : Forall (λ v, native v = true) l →
    run CountUnique l = Ok (VInt (zlen (distinct (map same_as l)))).
  Proof using Type.
    intros H. destruct (count_unique_run l H) as (items & Hs & _ & Hd). unfold run_acc. rewrite Hs. cbn.
    by rewrite <- Hd, map_length.
  Qed.
  Lemma run_first v l : run First (v :: l) = Ok v.
  Proof using Type. unfold run_acc. by rewrite first_run. Qed.
  Lemma run_last l v : run Last (l ++ [v]) = Ok v.
  Proof using Type. unfold run_acc. by rewrite last_run. Qed.
  Lemma run_max l k : l ≠ [] → Forall (λ v, native v = true ∧ kind_of v = k) l →
    ∃ m, run Max l = Ok m ∧ m ∈ l ∧ ∀ x, x ∈ l → at_most x m.
  Proof using Type.
    intros Hne H. destruct (max_run l k Hne H) as (m & Hs & Hm). exists m. unfold run_acc. by rewrite Hs.
  Qed.
  Lemma run_min l k : l ≠ [] → Forall (λ v, native v = true ∧ kind_of v = k) l →
    ∃ m, run Min l = Ok m ∧ m ∈ l ∧ ∀ x, x ∈ l → at_most m x.
  Proof using Type.
    intros Hne H. destruct (min_run l k Hne H) as (m & Hs & Hm). exists m. unfold run_acc. by rewrite Hs.
  Qed.
End aggregates.
