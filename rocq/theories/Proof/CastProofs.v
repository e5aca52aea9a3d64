From Coq Require Import String ZifyBool Lqa.
From Verif.Spec Require Import Cast.
From Verif.Proof Require Import DatesProofs NpyProofs InferProofs Binary64Proofs FloatValues.
Local Open Scope Z_scope.

(** * Dates *)
Lemma delta_seconds n : delta2Date n = n * 1000000.
Proof.
  unfold delta2Date. destruct (toTimedelta_spec 0 0 0 0 n 0 0) as (D & S & U & -> & HS & HU & E).
  rewrite (proj2 (epoch_of_days D)). unfold duration_us in E. unfold us_per_day. lia.
Qed.

Lemma year_of_days n : -719162 <= n <= 2932896 → python_year (date_of_days n) = true.
Proof.
  intros Hn. destruct (epoch_of_days n) as [[Hm Hd] E]. rewrite epoch_before in E. rewrite month_days_mlen in Hd.
  set (d := date_of_days n) in *.
  pose proof (month_loop_at (gleap (yy d)) (mm d) (dd d) Hm Hd) as [_ Ht].
  set (t := foldr Z.add 0 _ + dd d - 1) in *. unfold python_year.
  assert (1 <= yy d) as H1.
  { destruct (Z.le_gt_cases 1 (yy d)) as [|H]; [done|]. pose proof (before_mono (yy d) 1 ltac:(lia)) as B.
    change (before 1) with (-730119) in *. unfold ylen in B. lia. }
  assert (yy d <= 9999) as H2.
  { destruct (Z.le_gt_cases (yy d) 9999) as [|H]; [done|].
    assert (before 10000 <= before (yy d)) as B.
    { destruct (Z.eq_dec (yy d) 10000) as [->|]; [done|]. pose proof (before_mono 10000 (yy d) ltac:(lia)) as B.
      unfold ylen in B. destruct (gleap 10000); lia. }
    change (before 10000) with 2921940 in *. lia. }
  lia.
Qed.

Lemma year_python d : python_date d → python_year d = true.
Proof. intros [H _]. unfold python_year. lia. Qed.

(** * What is written *)
Definition write (objects : bool) : nvalue → res cell := if objects then as_object else as_number.

Lemma write_time objects t : 0 <= t → write objects (NTime t) = Ok (CTime (t mod us_per_day)).
Proof.
  intros Ht.
  assert (as_object (NTime t) = Ok (CTime (t mod us_per_day))) as E.
  { cbn [as_object]. unfold getHour, getMinute, getSecond, getMicrosecond, inHours, inMinutes, inSeconds, newPY_Time, us_per_day.
    rewrite Z.rem_mod_nonneg by (try apply Z.quot_pos; lia). rewrite !Z.quot_div_nonneg by lia.
    assert ((0 <=? t / 3600000000 mod 24) && (0 <=? t / 60000000 - t / 3600000000 * 60)
       && (0 <=? t / 1000000 - t / 60000000 * 60) && (0 <=? t - t / 1000000 * 1000000) = true) as ->.
    { Z.div_mod_to_equations. lia. }
    do 2 f_equal. Z.div_mod_to_equations. lia. }
  by destruct objects.
Qed.

(** seconds as microseconds *)
Definition python_us (t : Z) : Prop := -62135596800000000 <= t < 253402300800000000.

Lemma year_us t : python_us t → python_year (date_of_days (t / us_per_day)) = true.
Proof. intros H. apply year_of_days. unfold python_us, us_per_day in *. Z.div_mod_to_equations. lia. Qed.

Lemma write_datetime objects t : python_us t →
  write objects (NDateTime t) = Ok (CDateTime (date_of_days (t / us_per_day)) (t mod us_per_day)).
Proof. intros H. destruct objects; cbn [write as_object as_number]; [|done]. by rewrite year_us. Qed.

Lemma write_date objects t : python_us t → t mod us_per_day = 0 ∨ 0 <= t ∨ objects = true →
  write objects (NDate t) = Ok (CDate (date_of_days (t / us_per_day))).
Proof.
  intros H Hc. destruct objects; cbn [write as_object as_number]; [by rewrite year_us|].
  do 3 f_equal. destruct Hc as [Hc|[Hc|Hc]]; [|by rewrite Z.quot_div_nonneg|done].
  unfold us_per_day in *. rewrite (Z.div_mod t (24 * 60 * 60 * 1000000)) at 1 by lia. rewrite Hc, Z.add_0_r.
  rewrite (Z.mul_comm _ (t / _)), Z.quot_mul by lia. done.
Qed.

Lemma date_us_split d us : valid_ymd d → 0 <= us < us_per_day →
  date_of_days (date_us d us / us_per_day) = d ∧ date_us d us mod us_per_day = us.
Proof.
  intros Hd Hu. unfold date_us. rewrite <- (date_of_epoch d Hd) at 2.
  assert ((epoch_days d * us_per_day + us) / us_per_day = epoch_days d) as ->.
  { rewrite Z.div_add_l by (unfold us_per_day; lia). rewrite Z.div_small by done. lia. }
  split; [done|]. rewrite Z.add_comm, Z.mod_add by (unfold us_per_day; lia). by apply Z.mod_small.
Qed.

Lemma date_us_python d us : python_date d → 0 <= us < us_per_day → python_us (date_us d us).
Proof.
  intros Hd Hu. pose proof (epoch_bound d Hd) as B. unfold python_us, date_us, us_per_day in *. lia.
Qed.

(** * Own type *)
Lemma convert_own ca checks objects c : value_ok c → convert ca checks objects (kind_of c) c = Ok c.
Proof.
  intros H. unfold convert. change (if objects then as_object else as_number) with (write objects).
  destruct c as [|b|n|x|s|d|us|d us]; cbn [kind_of cast cast_bool cast_int cast_float cast_str cast_date cast_time
    cast_datetime res_bind]; try done; try (by destruct objects).
  - assert (0 <= 0 < us_per_day) as H0 by done. destruct (date_us_split d 0 (proj2 H) H0) as [E1 E2].
    rewrite write_date; [by rewrite E1|by apply date_us_python|by left].
  - rewrite write_time by (cbn in H; lia). by rewrite Z.mod_small.
  - destruct H as [H Hu]. destruct (date_us_split d us (proj2 H) Hu) as [E1 E2].
    rewrite write_datetime by (by apply date_us_python). by rewrite E1, E2.
Qed.

(** * Numbers *)
Lemma qtrunc_truncated q : truncated q (qtrunc q).
Proof.
  unfold truncated, qtrunc, Qle, Qlt. destruct q as [a b]. cbn [Qnum Qden inject_Z Qplus Qminus Qopp].
  pose proof (Z.quot_rem a (Z.pos b) ltac:(lia)) as E. set (n := Z.quot a (Z.pos b)) in *.
  destruct (Z.le_ge_cases 0 a) as [Ha|Ha]; [left|right].
  - pose proof (Z.rem_bound_pos a (Z.pos b) ltac:(lia) ltac:(lia)). rewrite ?Pos.mul_1_l. split_and!; nia.
  - pose proof (Z.rem_bound_pos_neg a (Z.pos b) ltac:(lia) ltac:(lia)). rewrite ?Pos.mul_1_l. split_and!; nia.
Qed.

Lemma truncated_unique q n m : truncated q n → truncated q m → n = m.
Proof.
  unfold truncated. intros H1 H2. 
  assert (∀ a b, (inject_Z a < inject_Z b + 1)%Q → a < b + 1) as Hlt.
  { intros a b H. rewrite Zlt_Qlt, inject_Z_plus. done. }
  assert (∀ a b, (inject_Z a - 1 < inject_Z b)%Q → a < b + 1) as Hlt2.
  { intros a b H. apply Hlt. lra. }
  destruct H1 as [(A & B & C)|(A & B & C)], H2 as [(D & E & F)|(D & E & F)].
  - assert (n < m + 1 ∧ m < n + 1); [|lia]. split; apply Hlt; lra.
  - assert (n < 0 + 1 ∧ 0 < n + 1 ∧ m < 0 + 1 ∧ 0 < m + 1); [|lia].
    split_and!; apply Hlt; change (inject_Z 0) with 0%Q; lra.
  - assert (n < 0 + 1 ∧ 0 < n + 1 ∧ m < 0 + 1 ∧ 0 < m + 1); [|lia].
    split_and!; apply Hlt; change (inject_Z 0) with 0%Q; lra.
  - assert (n < m + 1 ∧ m < n + 1); [|lia]. split; apply Hlt2; lra.
Qed.

Global Instance truncated_proper : Proper (Qeq ==> eq ==> iff) truncated.
Proof. intros p q E n ? <-. unfold truncated. by rewrite E. Qed.
Global Instance qtrunc_proper : Proper (Qeq ==> eq) qtrunc.
Proof.
  intros p q E. apply (truncated_unique p); [apply qtrunc_truncated|]. rewrite E. apply qtrunc_truncated.
Qed.

Lemma qtrunc_int n : qtrunc (inject_Z n) = n.
Proof. unfold qtrunc. cbn [Qnum inject_Z Qden]. apply Z.quot_1_r. Qed.

Lemma trunc_micro t : qtrunc (micro t) = inSeconds t.
Proof. unfold qtrunc, micro, inSeconds. cbn. by rewrite Z.mul_1_r. Qed.

Lemma truncated_ge1 q n : truncated q n → (1 <=? n) = true ↔ (1 <= q)%Q.
Proof.
  intros H. rewrite Z.leb_le, Zle_Qle. change (inject_Z 1) with 1%Q. unfold truncated in H. split; intros G.
  - destruct H as [H|H]; lra.
  - destruct (Qlt_le_dec (inject_Z n) 1) as [L|L]; [|done]. exfalso.
    destruct H as [(A & B & C)|H]; [|lra].
    assert (n < 1) as N by (rewrite Zlt_Qlt; done). assert (n <= 0) as N' by lia. rewrite Zle_Qle in N'.
    change (inject_Z 0) with 0%Q in N'. lra.
Qed.

Lemma micro_us d us : (micro (date_us d us) == midnight d + micro us)%Q.
Proof. unfold micro, midnight, date_us, us_per_day, Qeq. cbn. lia. Qed.

Section Numbers.
  Context (val : Z → Q) (ca : cast_arith) (Hf : cast_floats val ca) (checks objects : bool).

  Global Instance stands_proper k : Proper (Qeq ==> eq ==> impl) (stands_for val k).
  Proof.
    intros p q E w ? <- H. destruct k; cbn [stands_for] in *; try done.
    - destruct H as (b & ? & ?). exists b. by rewrite <- E.
    - destruct H as (b & ? & ?). exists b. by rewrite <- E.
    - destruct H as (b & ? & G). exists b. split; [done|]. rewrite G. by rewrite (fl_proper p q E).
    - destruct H as (d & ? & ? & ?). exists d. by rewrite <- E.
    - destruct H as (us & dy & ? & ? & ?). exists us, dy. by rewrite <- E.
    - destruct H as (d & us & ? & ? & ? & ?). exists d, us. by rewrite <- E.
  Qed.

  Lemma micro_le a b : (micro a <= micro b)%Q ↔ a <= b.
  Proof. unfold micro, Qle. cbn. lia. Qed.
  Lemma micro_lt a b : (micro a < micro b)%Q ↔ a < b.
  Proof. unfold micro, Qlt. cbn. lia. Qed.
  Lemma micro_int n : (inject_Z n == micro (n * 1000000))%Q.
  Proof. unfold micro, Qeq. cbn. lia. Qed.
  Lemma micro_plus a b : (micro (a + b) == micro a + micro b)%Q.
  Proof. unfold micro, Qeq. cbn. lia. Qed.
  Lemma python_micro t : python_seconds (micro t) ↔ python_us t.
  Proof. unfold python_seconds, python_us. rewrite !micro_int, micro_le, micro_lt. lia. Qed.

  Lemma python_int n : python_seconds (inject_Z n) ↔ python_us (n * 1000000).
  Proof. unfold python_seconds, python_us. rewrite !(micro_int _), micro_le, micro_lt. lia. Qed.
  Lemma stands_eq k p q w : (p == q)%Q → stands_for val k p w → stands_for val k q w.
  Proof. intros E. by apply (stands_proper k p q E w w). Qed.

  Lemma stands_time t : 0 <= t → ∃ w, write objects (NTime t) = Ok w ∧ stands_for val KTime (micro t) w.
  Proof.
    intros Ht. rewrite write_time by done. eexists. split; [done|]. exists (t mod us_per_day), (t / us_per_day).
    split; [done|]. split; [by apply Z.mod_pos_bound|]. rewrite micro_int, <- micro_plus.
    rewrite (Z.div_mod t us_per_day) at 1 by done. unfold us_per_day.
    replace (24 * 60 * 60 * 1000000 * (t / (24 * 60 * 60 * 1000000))) with (t / (24 * 60 * 60 * 1000000) * 86400 * 1000000) by lia.
    done.
  Qed.
  Lemma midnight_days n : (midnight (date_of_days n) == micro (n * us_per_day))%Q.
  Proof. unfold midnight. rewrite (proj2 (epoch_of_days n)), micro_int. unfold us_per_day.
    replace (n * 86400 * 1000000) with (n * (24 * 60 * 60 * 1000000)) by lia. done. Qed.
  Lemma stands_datetime t : python_us t → ∃ w, write objects (NDateTime t) = Ok w ∧ stands_for val KDateTime (micro t) w.
  Proof.
    intros Ht. rewrite write_datetime by done. eexists. split; [done|]. exists (date_of_days (t / us_per_day)), (t mod us_per_day).
    split; [done|]. split; [apply epoch_of_days|]. split; [by apply Z.mod_pos_bound|].
    rewrite midnight_days, <- micro_plus, (Z.mul_comm (t / _)), <- Z.div_mod by done. done.
  Qed.
  Lemma day_start t : python_us t → python_us (datetime2Date t).
  Proof. unfold python_us, datetime2Date, us_per_day. intros H. Z.div_mod_to_equations. lia. Qed.
  Lemma stands_date t : python_us t → ∃ w, write objects (NDate (datetime2Date t)) = Ok w ∧ stands_for val KDate (micro t) w.
  Proof.
    intros Ht. rewrite write_date; [|by apply day_start|left; by apply Z.mod_mul].
    eexists. split; [done|]. unfold datetime2Date. rewrite Z.div_mul by done.
    exists (date_of_days (t / us_per_day)). split; [done|]. split; [apply epoch_of_days|].
    rewrite midnight_days, micro_int, <- micro_plus, micro_le, micro_lt. unfold us_per_day. Z.div_mod_to_equations. lia.
  Qed.
  Lemma stands_int q n : truncated q n → ∃ w, write objects (NInt n) = Ok w ∧ stands_for val KInt q w.
  Proof. intros H. exists (CInt n). split; [by destruct objects|]. by exists n. Qed.
  Lemma stands_bool q n : truncated q n → ∃ w, write objects (NBool (1 <=? n)) = Ok w ∧ stands_for val KBool q w.
  Proof. intros H. exists (CBool (1 <=? n)). split; [by destruct objects|]. eexists. split; [done|]. by apply truncated_ge1. Qed.
  Lemma stands_float q x : (val x == fl q)%Q → ∃ w, write objects (NFloat x) = Ok w ∧ stands_for val KFloat q w.
  Proof. intros H. exists (CFloat x). split; [by destruct objects|]. by exists x. Qed.
  Lemma trunc_int n : truncated (inject_Z n) n.
  Proof. rewrite <- (qtrunc_int n) at 2. apply qtrunc_truncated. Qed.
  Lemma trunc_seconds t : truncated (micro t) (inSeconds t).
  Proof. rewrite <- trunc_micro. apply qtrunc_truncated. Qed.

  Lemma float_seconds t : (Qabs (micro t) * inject_Z 1000000 <= inject_Z (2 ^ 53))%Q → (val (ca_seconds ca t) == fl (micro t))%Q.
  Proof.
    intros H. rewrite (cf_seconds _ _ Hf).
    assert (Z.abs t <= 2 ^ 53) as Ht.
    { assert (Qabs (micro t) * inject_Z 1000000 == inject_Z (Z.abs t))%Q as E.
      { unfold micro, Qeq. cbn. lia. }
      rewrite E, <- Zle_Qle in H. done. }
    rewrite fl_int by done. rewrite (fl_proper _ (micro t)); [done|].
    unfold micro. cbn [Q2Qc this]. by rewrite (Qred_correct (inject_Z t)).
  Qed.

  Lemma duration_whole x n : (val x == inject_Z n)%Q → seconds2Duration ca x = n * 1000000.
  Proof.
    intros E. unfold seconds2Duration. rewrite (cf_int _ _ Hf), (cf_fraction _ _ Hf), (qtrunc_proper _ _ E), qtrunc_int.
    rewrite (fl_proper _ 0%Q) by (rewrite E; ring).
    assert (qtrunc (fl 0) = 0) as -> by (by vm_compute). lia.
  Qed.

  Lemma f_int_exact n : Z.abs n <= 2 ^ 53 → (val (f_int (ca_floats ca) n) == inject_Z n)%Q.
  Proof. intros H. rewrite (ra_int _ _ (cf_floats _ _ Hf)), fl_int by done. by rewrite (Qred_correct (inject_Z n)). Qed.

  Lemma convert_int k n : in_reach (CInt n) k (inject_Z n) →
    ∃ w, res_bind (cast_int ca k n) (write objects) = Ok w ∧ stands_for val k (inject_Z n) w.
  Proof.
    intros Hr. destruct k; cbn [cast_int res_bind]; try done.
    - apply stands_bool, trunc_int.
    - apply stands_int, trunc_int.
    - apply stands_float, (ra_int _ _ (cf_floats _ _ Hf)).
    - destruct Hr as [Hp _]. rewrite delta_seconds. apply python_int in Hp.
      destruct (stands_date _ Hp) as (w & ? & G). exists w. split; [done|]. apply (stands_eq _ (micro (n * 1000000))); [by rewrite <- micro_int|done].
    - destruct Hr as [H0 H1]. change 0%Q with (inject_Z 0) in H0. rewrite <- Zle_Qle in H0.
      rewrite (duration_whole _ n) by (apply f_int_exact; lia).
      destruct (stands_time (n * 1000000) ltac:(lia)) as (w & ? & G). exists w. split; [done|]. apply (stands_eq _ (micro (n * 1000000))); [by rewrite <- micro_int|done].
    - destruct Hr as [Hp _]. rewrite delta_seconds. apply python_int in Hp.
      destruct (stands_datetime _ Hp) as (w & ? & G). exists w. split; [done|]. apply (stands_eq _ (micro (n * 1000000))); [by rewrite <- micro_int|done].
  Qed.

  Lemma via_micro {k p q f} : (p == q)%Q → (∃ w, f = Ok w ∧ stands_for val k q w) → ∃ w : cell, f = Ok w ∧ stands_for val k p w.
  Proof. intros E (w & ? & ?). exists w. split; [done|]. by apply (stands_eq _ q). Qed.

  Lemma convert_number k c q : value_ok c → as_seconds val c = Some q → in_reach c k q →
    ∃ w, convert ca checks objects k c = Ok w ∧ stands_for val k q w.
  Proof.
    intros Hv Hs Hr. unfold convert. change (if objects then as_object else as_number) with (write objects).
    destruct c as [|b|n|x|s|d|us|d us]; cbn [as_seconds] in Hs; try done; injection Hs as <-; cbn [cast].
    - (* bool *)
      assert (∃ n, (n = if b then 1 else 0) ∧ ((if b then 1 else 0) == inject_Z n)%Q ∧ n <= 2 ^ 53) as (n & En & E & Hn).
      { destruct b; by eexists. }
      assert (in_reach (CInt n) k (inject_Z n)) as Hr'.
      { destruct k; cbn [in_reach] in *; try done; unfold python_seconds in *; rewrite <- E; try done.
        split; [apply Hr|done]. }
      destruct (convert_int k n Hr') as (w & G1 & G2).
      destruct k; try done; cbn [cast_bool]; try (rewrite <- En; exists w; split; [done|]; by apply (stands_eq _ (inject_Z n))).
      destruct b; (exists (CBool (1 <=? n)); subst n; split; [by destruct objects|]); by eexists.
    - by apply convert_int.
    - (* float *)
      destruct k; cbn [cast_float res_bind in_reach] in *; try done.
      + exists (CBool (ca_ge1 ca x)). split; [by destruct objects|]. eexists. split; [done|]. apply (cf_ge1 _ _ Hf).
      + apply stands_int. rewrite (cf_int _ _ Hf). apply qtrunc_truncated.
      + destruct Hr as [Hp Hw]. rewrite delta_seconds, (cf_int _ _ Hf).
        pose proof (qtrunc_truncated (val x)) as T. set (n := qtrunc (val x)) in *.
        assert (inject_Z n <= val x ∧ val x < inject_Z n + 1)%Q as [Hlo Hhi].
        { destruct Hw as [Hw|[m Hw]].
          - destruct T as [T|(T1 & T2 & T3)]; [tauto|].
            assert (n = 0) as ->; [|change (inject_Z 0) with 0%Q; lra].
            assert (-1 < n ∧ n < 1); [|lia]. rewrite !Zlt_Qlt. change (inject_Z 1) with 1%Q. change (inject_Z (-1)) with (-1)%Q. lra.
          - unfold n. rewrite (qtrunc_proper _ _ Hw), qtrunc_int. lra. }
        assert (python_us (n * 1000000)) as Hu.
        { apply python_int. split; [|destruct Hp; lra].
          destruct Hp as [Hp _].
          assert (-62135596800 < n + 1) as Hn by (rewrite Zlt_Qlt, inject_Z_plus; change (inject_Z 1) with 1%Q; lra).
          rewrite <- Zle_Qle. lia. }
        destruct (stands_date _ Hu) as (w & G & d & -> & Hd & H1 & H2). eexists. split; [done|]. exists d. split; [done|].
        split; [done|]. rewrite <- micro_int in H1, H2. split; [lra|]. unfold midnight in *.
        rewrite <- inject_Z_plus in *. rewrite <- Zlt_Qlt in H2. apply (Qlt_le_trans _ _ _ Hhi).
        change 1%Q with (inject_Z 1). rewrite <- inject_Z_plus, <- Zle_Qle. lia.
      + destruct Hr as [H0 [n Hw]]. rewrite (duration_whole x n Hw). rewrite Hw in H0. change 0%Q with (inject_Z 0) in H0.
        rewrite <- Zle_Qle in H0.
        destruct (stands_time (n * 1000000) ltac:(lia)) as (w & ? & G). exists w. split; [done|]. apply (stands_eq _ (micro (n * 1000000))); [by rewrite Hw, <- micro_int|done].
      + destruct Hr as [Hp [n Hw]]. rewrite (duration_whole x n Hw).
        assert (python_us (n * 1000000)) as Hu.
        { apply python_int. unfold python_seconds in *. by rewrite <- Hw. }
        destruct (stands_datetime _ Hu) as (w & ? & G). exists w. split; [done|]. apply (stands_eq _ (micro (n * 1000000))); [by rewrite Hw, <- micro_int|done].
    - (* date *)
      pose proof (date_us_python d 0 Hv ltac:(done)) as Hu.
      assert (midnight d == micro (date_us d 0))%Q as E.
      { rewrite micro_us. change (micro 0) with (0 # 1000000)%Q. unfold Qeq. cbn. lia. }
      destruct (date_us_split d 0 (proj2 Hv) ltac:(done)) as [E1 E2].
      destruct k; cbn [cast_date res_bind in_reach] in *; try done.
      + apply (via_micro E), stands_bool, trunc_seconds.
      + apply (via_micro E), stands_int, trunc_seconds.
      + apply stands_float. rewrite (ra_int _ _ (cf_floats _ _ Hf)). unfold midnight.
        unfold inSeconds, date_us, us_per_day. rewrite Z.add_0_r.
        replace (epoch_days d * (24 * 60 * 60 * 1000000)) with (epoch_days d * 86400 * 1000000) by lia.
        rewrite Z.quot_mul by lia. done.
      + apply (via_micro E). destruct (stands_date _ Hu) as (w & G & ?). exists w. split; [|done].
        rewrite <- G. unfold datetime2Date. do 2 f_equal. unfold date_us, us_per_day. rewrite Z.add_0_r.
        by rewrite Z.div_mul by lia.
      + tauto.
      + apply (via_micro E). by apply stands_datetime.
    - (* time *)
      destruct k; cbn [cast_time res_bind in_reach] in *; try done; try tauto.
      + apply stands_bool, trunc_seconds.
      + apply stands_int, trunc_seconds.
      + apply stands_float. by apply float_seconds.
      + apply stands_time. cbn in Hv. lia.
    - (* datetime *)
      destruct Hv as [Hd Hus]. pose proof (date_us_python d us Hd Hus) as Hu.
      assert (midnight d + micro us == micro (date_us d us))%Q as E by (by rewrite micro_us).
      destruct k; cbn [cast_datetime res_bind in_reach] in *; try done.
      + apply (via_micro E), stands_bool, trunc_seconds.
      + apply (via_micro E), stands_int, trunc_seconds.
      + rewrite E in Hr. apply (via_micro E), stands_float. by apply float_seconds.
      + apply (via_micro E). by apply stands_date.
      + rewrite E in Hr. apply (via_micro E), stands_time. destruct Hr as [H0 _]. change 0%Q with (inject_Z 0) in H0.
        rewrite micro_int, micro_le in H0. lia.
      + apply (via_micro E). by apply stands_datetime.
  Qed.
End Numbers.
