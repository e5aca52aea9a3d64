(** C56: members of [intercept A B] for ranges with positive steps. *)
From Verif.Model Require Import Intercept.
From Verif.Proof Require Import SliceLemmas.
From Coq Require Import ZifyBool.
Local Open Scope Z_scope.

Lemma mem_range a b s i : 0 < s → i ∈ py_range a b s ↔ a <= i < b ∧ (s | i - a).
Proof.
  intros Hs. rewrite elem_of_py_range by done. unfold in_range.
  rewrite <- Z.mod_divide by lia. lia.
Qed.

Lemma range_lookup a b s k x : py_range a b s !! k = Some x → x = a + s * Z.of_nat k.
Proof.
  unfold py_range. rewrite list_lookup_fmap. intros (y & Hy & ->)%fmap_Some.
  apply lookup_seqZ in Hy as [-> _]. lia.
Qed.

Lemma first_common_spec from e s low big :
  0 < s → 0 < big →
  match first_common from e s low big with
  | Some n => from <= n < e ∧ (s | n - from) ∧ low <= n ∧ (big | n - low) ∧
      ∀ i, from <= i < e → (s | i - from) → low <= i → (big | i - low) → n <= i
  | None => ∀ i, from <= i < e → (s | i - from) → low <= i → (big | i - low) → False
  end.
Proof.
  intros Hs Hb. unfold first_common.
  set (P := λ n : Z, Is_true (negb (n <? low) && ((n - low) mod big =? 0))).
  assert (∀ n, P n ↔ low <= n ∧ (big | n - low)) as HP.
  { intros n. subst P. cbv beta. rewrite <- Z.mod_divide by lia. unfold Is_true.
    destruct (negb (n <? low) && ((n - low) mod big =? 0)) eqn:E; split; try done; lia. }
  match goal with |- context [list_find ?Q ?l] => destruct (list_find Q l) as [[k n]|] eqn:E end;
    cbn [mbind option_bind snd].
  - apply list_find_Some in E as (Hk & Hp & Hmin).
    assert (n ∈ py_range from e s) as Hin by (eapply elem_of_list_lookup_2; eauto).
    apply mem_range in Hin as [? ?]; [|done]. apply HP in Hp as [? ?]. split_and!; try done; try lia.
    intros i Hi1 Hi2 Hi3 Hi4.
    assert (i ∈ py_range from e s) as Hin by (by apply mem_range).
    apply elem_of_list_lookup in Hin as [j Hj].
    destruct (decide (j < k)%nat) as [Hjk|Hjk].
    { exfalso. eapply Hmin; [exact Hj|done|]. by apply HP. }
    apply range_lookup in Hj, Hk. nia.
  - apply list_find_None in E. intros i Hi1 Hi2 Hi3 Hi4.
    assert (i ∈ py_range from e s) as Hin by (by apply mem_range).
    pose proof (proj1 (list.Forall_forall _ _) E i Hin) as H0. cbn beta in H0.
    apply H0. by apply HP.
Qed.

(** first member of the progression [a, a + s, ..] not below [st] *)
Lemma cdiv_start st a s :
  0 < s → a <= st →
  let r := cdiv (st - a) s * s + a in st <= r < st + s ∧ (s | r - a).
Proof.
  intros Hs Ha. cbv zeta. unfold cdiv. split.
  - Z.div_mod_to_equations. nia.
  - exists (- (- (st - a) / s)). lia.
Qed.

(** members of the progression from [st] on are those from [r] on *)
Lemma cdiv_member st a s i :
  0 < s → a <= st → st <= i →
  let r := cdiv (st - a) s * s + a in (s | i - a) ↔ r <= i ∧ (s | i - r).
Proof.
  intros Hs Ha Hi. cbv zeta. destruct (cdiv_start st a s Hs Ha) as [H1 H2]. cbv zeta in *.
  set (r := cdiv (st - a) s * s + a) in *. clearbody r. split.
  - intros Hd. assert (s | i - r) as Hir.
    { replace (i - r) with ((i - a) - (r - a)) by lia. by apply Z.divide_sub_r. }
    split; [|done]. destruct Hir as [k Hk]. destruct (Z.le_gt_cases 0 k); [nia|].
    assert (k <= -1) by lia. nia.
  - intros [_ Hd]. replace (i - a) with ((i - r) + (r - a)) by lia. by apply Z.divide_add_r.
Qed.

Lemma both_divide s1 s2 step d :
  step = Z.lcm s1 s2 → (step | d) ↔ (s1 | d) ∧ (s2 | d).
Proof.
  intros ->. split.
  - intros H. split; eapply Z.divide_trans; [apply Z.divide_lcm_l|exact H|apply Z.divide_lcm_r|exact H].
  - intros [? ?]. by apply Z.lcm_least.
Qed.

Lemma step_is_lcm s1 s2 :
  0 < s1 → 0 < s2 → s1 ≠ s2 → Z.gcd s1 s2 = 1 ∨ (s1 | s2) ∨ (s2 | s1) → s1 ≠ 1 → s2 ≠ 1 →
  (if negb (Z.gcd s1 s2 =? 1) then Z.max s1 s2 else s1 * s2) = Z.lcm s1 s2.
Proof.
  intros H1 H2 Hne Hc N1 N2.
  destruct (Z.eqb_spec (Z.gcd s1 s2) 1) as [E|E]; simpl.
  - unfold Z.lcm. rewrite E, Z.div_1_r. lia.
  - destruct Hc as [?|[Hd|Hd]]; [done| |].
    + apply Z.divide_pos_le in Hd as Hle; [|done].
      rewrite Z.max_r by lia. symmetry.
      apply Z.divide_lcm_eq_r; [lia|done].
    + apply Z.divide_pos_le in Hd as Hle; [|done].
      rewrite Z.max_l by lia. symmetry. rewrite Z.lcm_comm.
      apply Z.divide_lcm_eq_r; [lia|done].
Qed.

Lemma rlen_zero r : 0 < r_step r → rlen r = 0 → r_stop r <= r_start r.
Proof.
  intros Hs. unfold rlen, range_count. assert ((0 <? r_step r) = true) as -> by lia.
  intros H. destruct (Z.le_gt_cases (r_stop r) (r_start r)); [done|].
  assert (1 <= (r_stop r - r_start r + r_step r - 1) / r_step r).
  { apply Z.div_le_lower_bound; lia. }
  lia.
Qed.

Lemma intercept_members A B :
  0 < r_step A → 0 < r_step B →
  Z.gcd (r_step A) (r_step B) = 1 ∨ (r_step A | r_step B) ∨ (r_step B | r_step A) →
  (r_step A ≠ r_step B ∨ r_step A = 1) →
  ∃ r, intercept A B = Ok r ∧ 0 < r_step r ∧
       ∀ i, i ∈ rlist r ↔ i ∈ rlist A ∧ i ∈ rlist B.
Proof.
  destruct A as [a1 b1 s1], B as [a2 b2 s2]. cbn [r_step r_start r_stop].
  intros H1 H2 Hc Hne. unfold intercept, straighten. cbn [r_step r_start r_stop].
  assert ((s1 <? 1) = false) as -> by lia. assert ((s2 <? 1) = false) as -> by lia.
  cbn [r_step r_start r_stop].
  assert (∀ i, i ∈ rlist rempty ↔ False) as He.
  { intros i. unfold rlist, rempty. cbn [r_step r_start r_stop].
    split; [|done]. intros H. apply mem_range in H; lia. }
  assert ((∀ i, ¬ (i ∈ rlist (Rng a1 b1 s1) ∧ i ∈ rlist (Rng a2 b2 s2))) →
    ∃ r, Ok rempty = Ok r ∧ 0 < r_step r ∧
       ∀ i, i ∈ rlist r ↔ i ∈ rlist (Rng a1 b1 s1) ∧ i ∈ rlist (Rng a2 b2 s2)) as Hempty.
  { intros H. exists rempty. split; [done|]. split; [done|]. intros i. rewrite He.
    split; [done|]. intros Hi. by apply (H i). }
  assert (∀ i, i ∈ rlist (Rng a1 b1 s1) ∧ i ∈ rlist (Rng a2 b2 s2) ↔
     Z.max a1 a2 <= i < Z.min b1 b2 ∧ (s1 | i - a1) ∧ (s2 | i - a2)) as Hboth.
  { intros i. unfold rlist. cbn [r_step r_start r_stop]. rewrite !mem_range by done.
    split; [intros [[? ?] [? ?]]|intros (? & ? & ?)]; split_and!; try done; lia. }
  destruct (rlen (Rng a1 b1 s1) =? 0) eqn:E1.
  { apply Hempty. intros i Hi%Hboth. apply Z.eqb_eq, rlen_zero in E1; simpl in *; lia. }
  destruct (rlen (Rng a2 b2 s2) =? 0) eqn:E2.
  { apply Hempty. intros i Hi%Hboth. apply Z.eqb_eq, rlen_zero in E2; simpl in *; lia. }
  destruct (b1 <=? a2) eqn:E3. { apply Hempty. intros i Hi%Hboth. lia. }
  destruct (b2 <=? a1) eqn:E4. { apply Hempty. intros i Hi%Hboth. lia. }
  assert ((if a1 <=? a2 then if b1 <=? b2 then (a2, b1) else (a2, b2)
           else if b1 <=? b2 then (a1, b1) else (a1, b2)) = (Z.max a1 a2, Z.min b1 b2)) as ->.
  { destruct (a1 <=? a2) eqn:?, (b1 <=? b2) eqn:?; f_equal; lia. }
  set (st := Z.max a1 a2) in *. set (en := Z.min b1 b2) in *.
  assert (a1 <= st) as Hst1 by lia. assert (a2 <= st) as Hst2 by lia.
  destruct (cdiv_start st a1 s1 H1 Hst1) as [Hr1 Hd1].
  destruct (cdiv_start st a2 s2 H2 Hst2) as [Hr2 Hd2].
  pose proof (λ i, cdiv_member st a1 s1 i H1 Hst1) as Hm1.
  pose proof (λ i, cdiv_member st a2 s2 i H2 Hst2) as Hm2.
  cbv zeta in *.
  set (r1 := cdiv (st - a1) s1 * s1 + a1) in *. set (r2 := cdiv (st - a2) s2 * s2 + a2) in *.
  clearbody r1 r2 st en.
  assert (∀ i, i ∈ rlist (Rng a1 b1 s1) ∧ i ∈ rlist (Rng a2 b2 s2) ↔
     st <= i < en ∧ r1 <= i ∧ (s1 | i - r1) ∧ r2 <= i ∧ (s2 | i - r2)) as Hboth2.
  { intros i. rewrite Hboth. split.
    - intros (? & Ha & Hb). apply Hm1 in Ha; [|lia]. apply Hm2 in Hb; [|lia]. tauto.
    - intros (? & ? & ? & ? & ?). split; [done|]. split; [apply Hm1|apply Hm2]; try lia; done. }
  destruct ((s1 =? 1) || (s2 =? 1)) eqn:Eone.
  { eexists. split; [reflexivity|]. cbn [r_step]. split; [lia|]. intros i. rewrite Hboth2.
    unfold rlist. cbn [r_step r_start r_stop]. rewrite mem_range by lia.
    destruct (Z.eqb_spec s1 1) as [->|].
    - assert (r1 = st) by lia. subst r1. rewrite !Z.max_r by lia.
      split; [|tauto]. intros [? ?]. split_and!; try done; try lia. apply Z.divide_1_l.
    - assert (s2 = 1) by lia. subst s2. assert (r2 = st) by lia. subst r2.
      rewrite !Z.max_l by lia. split; [|tauto].
      intros [? ?]. split_and!; try done; try lia. apply Z.divide_1_l. }
  assert ((s1 =? s2) = false) as -> by lia.
  assert (s1 ≠ 1 ∧ s2 ≠ 1 ∧ s1 ≠ s2) as (N1 & N2 & N3) by lia.
  pose proof (step_is_lcm s1 s2 H1 H2 N3 Hc N1 N2) as Hstep.
  rewrite Hstep.
  assert (0 < Z.lcm s1 s2) as Hpos.
  { pose proof (Z.lcm_nonneg s1 s2). assert (Z.lcm s1 s2 ≠ 0); [|lia].
    rewrite Z.lcm_eq_0. lia. }
  assert (∀ n, n < en → st <= n → r1 <= n → r2 <= n → (s1 | n - r1) → (s2 | n - r2) →
     (∀ i, st <= i < en → r1 <= i → (s1 | i - r1) → r2 <= i → (s2 | i - r2) → n <= i) →
     ∃ r, Ok (Rng n en (Z.lcm s1 s2)) = Ok r ∧ 0 < r_step r ∧
       ∀ i, i ∈ rlist r ↔ i ∈ rlist (Rng a1 b1 s1) ∧ i ∈ rlist (Rng a2 b2 s2)) as Hsome.
  { intros n Hn1 Hn2 Hn3 Hn4 Hn5 Hn6 Hmin. eexists. split; [reflexivity|]. split; [done|].
    intros i. rewrite Hboth2. unfold rlist. cbn [r_step r_start r_stop].
    rewrite mem_range by done. rewrite (both_divide s1 s2 _ _ eq_refl).
    assert (∀ s r, (s | n - r) → (s | i - n) ↔ (s | i - r)) as Hx.
    { intros s r Hs. split; intros Hi.
      - replace (i - r) with ((i - n) + (n - r)) by lia. by apply Z.divide_add_r.
      - replace (i - n) with ((i - r) - (n - r)) by lia. by apply Z.divide_sub_r. }
    rewrite (Hx s1 r1), (Hx s2 r2) by done. split; [intros (? & ? & ?); split_and!; try done; lia|].
    intros (Hi & ? & ? & ? & ?). split_and!; try done; [|lia]. by apply Hmin. }
  destruct (s1 <? s2) eqn:Es.
  - pose proof (first_common_spec r1 en s1 r2 s2 H1 H2) as Hf.
    destruct (first_common r1 en s1 r2 s2) as [n|].
    + destruct Hf as (? & ? & ? & ? & Hmin). apply Hsome; try done; try lia.
      intros i ? ? ? ? ?. apply Hmin; try done; lia.
    + apply Hempty. intros i Hi%Hboth2. destruct Hi as (? & ? & ? & ? & ?).
      apply (Hf i); try done; lia.
  - pose proof (first_common_spec r2 en s2 r1 s1 H2 H1) as Hf.
    destruct (first_common r2 en s2 r1 s1) as [n|].
    + destruct Hf as (? & ? & ? & ? & Hmin). apply Hsome; try done; try lia.
      intros i ? ? ? ? ?. apply Hmin; try done; lia.
    + apply Hempty. intros i Hi%Hboth2. destruct Hi as (? & ? & ? & ? & ?).
      apply (Hf i); try done; lia.
Qed.

Lemma intercept_wrong_gcd :
  ∃ r, intercept (Rng 0 40 4) (Rng 0 40 6) = Ok r ∧ 6 ∈ rlist r ∧ 6 ∉ rlist (Rng 0 40 4).
Proof.
  exists (Rng 0 40 6). split; [by vm_compute|].
  split; [apply mem_range; [done|]; cbn [r_start r_stop r_step]; split; [lia|]; exists 1; lia|].
  intros H. apply mem_range in H as [_ [k Hk]]; cbn [r_start r_stop r_step] in *; lia.
Qed.

Lemma intercept_raises : intercept (Rng 0 40 4) (Rng 8 40 4) = Err UnboundLocalError.
Proof. by vm_compute. Qed.

Lemma intercept_refute :
  (∃ A B r i, 0 < r_step A ∧ 0 < r_step B ∧ intercept A B = Ok r ∧ i ∈ rlist r ∧ i ∉ rlist A) ∧
  (∃ A B, 0 < r_step A ∧ 0 < r_step B ∧ intercept A B = Err UnboundLocalError).
Proof.
  split.
  - destruct intercept_wrong_gcd as (r & H1 & H2 & H3).
    exists (Rng 0 40 4), (Rng 0 40 6), r, 6. split_and!; try done; simpl; lia.
  - exists (Rng 0 40 4), (Rng 8 40 4). split_and!; try (simpl; lia). apply intercept_raises.
Qed.
