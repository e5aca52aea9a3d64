From Verif.Model Require Import Dates.
From Coq Require Import ZifyBool.
Local Open Scope Z_scope.

Lemma toTimedelta_spec w d h m s ms us :
  ∃ D S U, toTimedelta w d h m s ms us = (D, S, U) ∧
  0 <= S < 86400 ∧ 0 <= U < 1000000 ∧
  (D * 86400 + S) * 1000000 + U = duration_us w d h m s ms us.
Proof.
  unfold toTimedelta, divmod, duration_us. eexists _, _, _. split; [reflexivity|].
  Z.div_mod_to_equations. lia.
Qed.

Lemma isLeapYear_gleap y : isLeapYear y = gleap y.
Proof.
  unfold isLeapYear, gleap.
  assert (∀ k, 0 < k → (Z.rem y k =? 0) = (y mod k =? 0)) as H.
  { intros k Hk. apply eq_true_iff_eq. rewrite !Z.eqb_eq.
    rewrite Z.rem_divide, Z.mod_divide by lia. done. }
  rewrite !H by lia.
  destruct (y mod 4 =? 0) eqn:E4, (y mod 100 =? 0) eqn:E100, (y mod 400 =? 0) eqn:E400; try done;
    exfalso; apply Z.eqb_eq in E400 || apply Z.eqb_neq in E400;
    apply Z.eqb_eq in E4 || apply Z.eqb_neq in E4; Z.div_mod_to_equations; lia.
Qed.

(** days before 1 January of year [y], counted from 1 January 2000 *)
Definition before (y : Z) : Z :=
  let k := y - 2000 in 365 * k + (k + 3) / 4 - (k + 99) / 100 + (k + 399) / 400.
Definition ylen (y : Z) : Z := if gleap y then 366 else 365.

Lemma before_next y : before (y + 1) = before y + ylen y.
Proof.
  unfold before, ylen, gleap.
  destruct (y mod 400 =? 0) eqn:E400, (y mod 4 =? 0) eqn:E4, (y mod 100 =? 0) eqn:E100; simpl;
  rewrite ?Z.eqb_eq, ?Z.eqb_neq in *; Z.div_mod_to_equations; lia.
Qed.

Lemma years_days_spec n y t :
  days2YearsDays n = (y, t) → n - 10957 = before y + t ∧ 0 <= t < ylen y.
Proof.
  unfold days2YearsDays, extractUnit, divmod.
  change (400 * 365 + 100 - 4 + 1) with 146097. change (365 * 30 + 7) with 10957.
  change (100 * 365 + 25 - 1) with 36524. change (4 * 365 + 1) with 1461.
  set (x := n - 10957).
  pose proof (Z.mod_pos_bound x 146097 ltac:(lia)) as Hm.
  rewrite (Z.mod_eq x 146097) in Hm by lia.
  set (r := x - 146097 * (x / 146097)) in *. set (q := x / 146097) in *.
  assert (x = 146097 * q + r) as Hx by (subst r; lia).
  assert ((r <? 0) = false) as -> by lia.
  destruct (366 <=? r) eqn:E1.
  2:{ intros [= <- <-]. split; [unfold before | unfold ylen, gleap].
      - Z.div_mod_to_equations; lia.
      - destruct ((400 * q + 2000) mod 400 =? 0) eqn:E; [simpl; lia|].
        exfalso. rewrite Z.eqb_neq in E. Z.div_mod_to_equations; lia. }
  rewrite Z.quot_div_nonneg, Z.rem_mod_nonneg by lia.
  set (c := (r - 1) / 36524). set (r1 := (r - 1) mod 36524).
  assert (r - 1 = 36524 * c + r1 ∧ 0 <= r1 < 36524 ∧ 0 <= c <= 3) as (Hr & Hr1 & Hc).
  { subst c r1. Z.div_mod_to_equations; lia. }
  clearbody c r1.
  destruct (365 <=? r1) eqn:E2.
  2:{ intros [= <- <-].
      assert (before (400 * q + 100 * c + 2000) = 146097 * q + 36524 * c + (if c =? 0 then 0 else 1)) as ->.
      { unfold before. destruct (c =? 0) eqn:Ec; Z.div_mod_to_equations; lia. }
      assert (c ≠ 0) by lia. destruct (c =? 0) eqn:Ec; [lia|]. split; [lia|].
      unfold ylen. destruct (gleap _); lia. }
  rewrite Z.quot_div_nonneg, Z.rem_mod_nonneg by lia.
  set (f := (r1 + 1) / 1461). set (r2 := (r1 + 1) mod 1461).
  assert (r1 + 1 = 1461 * f + r2 ∧ 0 <= r2 < 1461 ∧ 0 <= f <= 24) as (Hr' & Hr2 & Hf).
  { subst f r2. Z.div_mod_to_equations; lia. }
  clearbody f r2.
  assert (∀ k, 0 <= k <= 3 → f ≠ 0 ∨ k ≠ 0 →
     before (400 * q + 100 * c + 4 * f + k + 2000)
     = 146097 * q + 36524 * c + 1461 * f + 365 * k + (if k =? 0 then 0 else 1)) as Hb.
  { intros k Hk Hfk. unfold before. destruct (k =? 0) eqn:Ek; Z.div_mod_to_equations; lia. }
  assert (∀ k, 0 <= k <= 3 → f ≠ 0 → 0 < k ∨ ylen (400 * q + 100 * c + 4 * f + k + 2000) = 366) as Hl.
  { intros k Hk Hf0. destruct (decide (k = 0)) as [->|]; [right|left; lia].
    unfold ylen, gleap.
    assert ((400 * q + 100 * c + 4 * f + 0 + 2000) mod 4 = 0) as -> by (Z.div_mod_to_equations; lia).
    assert ((400 * q + 100 * c + 4 * f + 0 + 2000) mod 100 ≠ 0) as ?%Z.eqb_neq by (Z.div_mod_to_equations; lia).
    rewrite H. simpl. by rewrite orb_true_r. }
  destruct (366 <=? r2) eqn:E3.
  2:{ intros [= <- <-]. specialize (Hb 0 ltac:(lia) ltac:(lia)).
      rewrite Z.add_0_r in Hb. simpl in Hb. rewrite Hb.
      destruct (Hl 0) as [?|Hl0]; [lia|lia|lia|]. rewrite Z.add_0_r in Hl0. rewrite Hl0. lia. }
  rewrite Z.quot_div_nonneg, Z.rem_mod_nonneg by lia.
  set (k := (r2 - 1) / 365). set (t' := (r2 - 1) mod 365).
  assert (r2 - 1 = 365 * k + t' ∧ 0 <= t' < 365 ∧ 1 <= k <= 3) as (Hk & Ht & Hkk).
  { subst k t'. Z.div_mod_to_equations; lia. }
  clearbody k t'. intros [= <- <-]. rewrite Hb by lia.
  destruct (k =? 0) eqn:Ek; [lia|]. split; [lia|]. unfold ylen. destruct (gleap _); lia.
Qed.

(** month and day within a year of either kind: a finite check *)
Definition mlen (leap : bool) (m : Z) : Z :=
  if m =? 2 then if leap then 29 else 28
  else if (m =? 4) || (m =? 6) || (m =? 9) || (m =? 11) then 30 else 31.

Definition year_ok (leap : bool) (t : Z) : bool :=
  match month_loop (DAYS_PER_MONTH leap) 0 t with
  | None => false
  | Some (m, d) =>
      (1 <=? m) && (m <=? 12) && (1 <=? d) && (d <=? mlen leap m) &&
      match month_loop (DAYS_PER_MONTH leap) 0 (t + 1) with
      | None => (t =? (if leap then 365 else 364)) && (m =? 12) && (d =? 31)
      | Some (m', d') =>
          (t <? (if leap then 365 else 364)) &&
          if d <? mlen leap m then (m' =? m) && (d' =? d + 1)
          else (m <? 12) && (m' =? m + 1) && (d' =? 1)
      end
  end.

Lemma year_all (leap : bool) t : 0 <= t < (if leap then 366 else 365) → year_ok leap t = true.
Proof.
  intros Ht.
  assert (Forall (λ t, year_ok leap t = true) (seqZ 0 (if leap then 366 else 365))) as H.
  { assert (forallb (year_ok leap) (seqZ 0 (if leap then 366 else 365)) = true) as Hb
      by (destruct leap; vm_compute; reflexivity).
    apply list.Forall_forall. intros x Hx. rewrite forallb_forall in Hb.
    apply Hb. by apply elem_of_list_In. }
  rewrite list.Forall_forall in H. apply H. apply elem_of_seqZ. destruct leap; lia.
Qed.

Lemma month_days_mlen y m : month_days y m = mlen (gleap y) m.
Proof. done. Qed.

Lemma ylen_pos y : 0 <= 0 < ylen y.
Proof. unfold ylen. destruct (gleap y); lia. Qed.

(** determines year and day of the year *)
Lemma before_mono y z : y < z → before y + ylen y <= before z.
Proof.
  intros H. rewrite <- before_next. unfold before. Z.div_mod_to_equations. lia.
Qed.

Lemma before_unique y z t u :
  0 <= t < ylen y → 0 <= u < ylen z → before y + t = before z + u → y = z ∧ t = u.
Proof.
  intros Ht Hu H. destruct (Z.lt_total y z) as [Hl|[->|Hl]].
  - pose proof (before_mono _ _ Hl). lia.
  - lia.
  - pose proof (before_mono _ _ Hl). lia.
Qed.

Lemma days_step n :
  ∃ d, days2Components n = Some d ∧ valid_ymd d ∧ days2Components (n + 1) = Some (next_day d).
Proof.
  unfold days2Components.
  destruct (days2YearsDays n) as [y t] eqn:E, (days2YearsDays (n + 1)) as [z u] eqn:E'.
  apply years_days_spec in E as [E Ht]. apply years_days_spec in E' as [E' Hu].
  rewrite !isLeapYear_gleap.
  pose proof (year_all (gleap y) t) as Hy. unfold year_ok in Hy. fold (ylen y) in Hy.
  specialize (Hy Ht).
  destruct (month_loop (DAYS_PER_MONTH (gleap y)) 0 t) as [[m d]|] eqn:Em; [|done].
  rewrite !andb_true_iff in Hy. destruct Hy as [[[[Hm1 Hm2] Hd1] Hd2] Hn].
  exists (Ymd y m d). split; [done|]. split.
  { unfold valid_ymd; simpl. rewrite month_days_mlen. lia. }
  unfold next_day. cbn [yy mm dd]. rewrite month_days_mlen.
  destruct (Z.lt_ge_cases (t + 1) (ylen y)) as [Hlt|Hge].
  - destruct (before_unique y z (t + 1) u) as [<- <-]; [lia|lia|lia|].
    destruct (month_loop (DAYS_PER_MONTH (gleap y)) 0 (t + 1)) as [[m' d']|].
    + rewrite andb_true_iff in Hn. destruct Hn as [_ Hn]. simpl.
      destruct (d <? mlen (gleap y) m).
      * apply andb_true_iff in Hn as [?%Z.eqb_eq ?%Z.eqb_eq]. by subst.
      * rewrite !andb_true_iff in Hn. destruct Hn as [[-> ?%Z.eqb_eq] ?%Z.eqb_eq]. by subst.
    + rewrite !andb_true_iff in Hn. exfalso. unfold ylen in *. destruct (gleap y); lia.
  - assert (t = ylen y - 1) as -> by lia.
    destruct (before_unique (y + 1) z 0 u) as [<- <-].
    { apply ylen_pos. } { lia. } { rewrite before_next. lia. }
    destruct (month_loop (DAYS_PER_MONTH (gleap y)) 0 (ylen y - 1 + 1)) as [[m' d']|].
    + rewrite !andb_true_iff in Hn. exfalso. unfold ylen in *. destruct (gleap y); lia.
    + rewrite !andb_true_iff in Hn. destruct Hn as [[_ Hm] Hd].
      apply Z.eqb_eq in Hm, Hd. subst m d.
      assert ((31 <? mlen (gleap y) 12) = false) as -> by reflexivity.
      assert ((12 <? 12) = false) as -> by reflexivity.
      destruct (gleap (y + 1)); reflexivity.
Qed.

Lemma days_epoch : days2Components 0 = Some (Ymd 1970 1 1).
Proof. by vm_compute. Qed.

(** the successor function is injective on valid dates, so that the conversion
    is the only one with these properties *)
Lemma next_day_inj a b : valid_ymd a → valid_ymd b → next_day a = next_day b → a = b.
Proof.
  destruct a as [y m d], b as [y' m' d']. unfold valid_ymd, next_day. cbn [yy mm dd].
  intros [Hm Hd] [Hm' Hd'] H.
  destruct (d <? month_days y m) eqn:E1, (d' <? month_days y' m') eqn:E2;
    try destruct (m <? 12) eqn:E3; try destruct (m' <? 12) eqn:E4; injection H; intros; try lia;
    assert (y = y') by lia; subst y'; assert (m = m') by lia; subst m'; f_equal; lia.
Qed.

Lemma days_unique (f : Z → ymd) :
  f 0 = Ymd 1970 1 1 → (∀ n, valid_ymd (f n)) → (∀ n, f (n + 1) = next_day (f n)) →
  ∀ n, days2Components n = Some (f n).
Proof.
  intros H0 Hv Hs.
  assert (∀ n : Z, 0 <= n → days2Components n = Some (f n)) as Hpos.
  { apply natlike_ind; [rewrite H0; apply days_epoch|]. intros n Hn IH. unfold Z.succ.
    destruct (days_step n) as (d & Hd & _ & ->). rewrite Hs. congruence. }
  assert (∀ n : Z, 0 <= n → days2Components (- n) = Some (f (- n))) as Hneg.
  { apply natlike_ind; [apply Hpos; lia|]. intros n Hn IH.
    destruct (days_step (- Z.succ n)) as (d & Hd & Hvd & Hnd).
    replace (- Z.succ n + 1) with (- n) in Hnd by lia.
    rewrite Hd. f_equal. apply next_day_inj; [done|done|].
    rewrite IH in Hnd. injection Hnd as Hnd. rewrite <- Hnd, <- Hs. f_equal. lia. }
  intros n. destruct (Z.le_ge_cases 0 n); [by apply Hpos|].
  rewrite <- (Z.opp_involutive n). apply Hneg. lia.
Qed.
