(** The values of decimal numbers in texts. *)
From Coq Require Import Lqa Qpower.
From stdpp Require Import countable.
From Verif.Proof Require Import FloatProofs Binary64Proofs InferProofs.
Local Open Scope Z_scope.

Lemma ten_tenth n : (inject_Z (10 ^ Z.of_nat n) * (1 # 10) ^ Z.of_nat n == 1)%Q.
Proof.
  rewrite Zpower_Qpower by lia. rewrite <- Qmult_power. change (inject_Z 10 * (1 # 10))%Q with (10 # 10)%Q.
  assert ((10 # 10) == 1)%Q as -> by done. apply Qpower_1.
Qed.
Lemma tenth_S n : ((1 # 10) ^ Z.of_nat (S n) == (1 # 10) * (1 # 10) ^ Z.of_nat n)%Q.
Proof. rewrite Nat2Z.inj_succ, <- Z.add_1_l. rewrite Qpower_plus by done. done. Qed.

Definition start_value (fa : float_arith) (whole : list Z) : Z :=
  match whole with [] => f_int fa 0 | c :: r => fold_left (int_step fa) r (f_digit fa c) end.

Section Exact.
  Context (val : Z → Q) (fa : float_arith) (H : exact_arith val fa).
  Local Open Scope Q_scope.

  Lemma exact_steps ds v m : val v == inject_Z m →
    val (fold_left (int_step fa) ds v) == inject_Z (fold_left (λ v d, 10 * v + (d - 48))%Z ds m).
  Proof.
    revert v m. induction ds as [|d ds IH]; intros v m Hv; [done|]. cbn [fold_left]. apply IH.
    unfold int_step, f_digit. rewrite (ea_add _ _ H), (ea_mul _ _ H), !(ea_int _ _ H), Hv.
    rewrite inject_Z_plus, inject_Z_mult. ring.
  Qed.
  Lemma exact_start w : val (start_value fa w) == inject_Z (digits_value w).
  Proof.
    destruct w as [|c r]; [apply (ea_int _ _ H)|]. unfold digits_value. cbn [start_value fold_left].
    apply exact_steps. unfold f_digit. by rewrite (ea_int _ _ H).
  Qed.
  Lemma exact_frac ds v l :
    val (fold_left (frac_step fa) ds (v, l)).1 == val v + val l * (inject_Z (digits_value ds) * (1 # 10) ^ zlen ds).
  Proof.
    revert v l. induction ds as [|d ds IH]; intros v l.
    - cbn. ring.
    - cbn [fold_left]. unfold frac_step at 2. cbn [fst snd]. rewrite IH.
      unfold f_digit. rewrite (ea_add _ _ H), !(ea_mul _ _ H), (ea_int _ _ H), (ea_tenth _ _ H).
      rewrite digits_cons. cbn [List.length]. rewrite tenth_S, inject_Z_plus, inject_Z_mult.
      pose proof (ten_tenth (length ds)) as E.
      set (t := inject_Z (10 ^ zlen ds)) in *. set (u := (1 # 10) ^ zlen ds) in *.
      transitivity (val v + val l * ((1 # 10) * (inject_Z (d - 48) * (t * u) + inject_Z (digits_value ds) * u))).
      + rewrite E. ring.
      + ring.
  Qed.

  Lemma exact_value p : val (machine_value fa p) == decimal_value p.
  Proof.
    assert (val (machine_mantissa fa p).1 ==
      inject_Z (digits_value (d_whole p ++ d_fraction p)) * (1 # 10) ^ zlen (d_fraction p)) as Hm.
    { unfold machine_mantissa. rewrite exact_frac. fold (start_value fa (d_whole p)).
      rewrite exact_start, (ea_int _ _ H), digits_app, inject_Z_plus, inject_Z_mult.
      pose proof (ten_tenth (length (d_fraction p))) as E.
      set (t := inject_Z (10 ^ zlen (d_fraction p))) in *. set (u := (1 # 10) ^ zlen (d_fraction p)) in *.
      transitivity (inject_Z (digits_value (d_whole p)) * (t * u) + inject_Z (digits_value (d_fraction p)) * u).
      - rewrite E. change (inject_Z 1) with 1. ring.
      - ring. }
    unfold machine_value, decimal_value. cbv zeta.
    set (M := inject_Z (digits_value (d_whole p ++ d_fraction p)) * (1 # 10) ^ zlen (d_fraction p)) in *.
    assert (val (f_mul fa (machine_mantissa fa p).1 (f_int fa (if d_negative p then -1 else 1)%Z)) ==
      (if d_negative p then - M else M)) as Hs.
    { rewrite (ea_mul _ _ H), (ea_int _ _ H), Hm. destruct (d_negative p); [change (inject_Z (-1)) with (-1)|change (inject_Z 1) with 1]; ring. }
    destruct (d_exponent p) as [[neg ds]|]; rewrite (ea_mul _ _ H), Hs.
    - rewrite (ea_pow10 _ _ H _ (if neg then - digits_value ds else digits_value ds)%Z); [done|].
      rewrite (ea_mul _ _ H), (ea_int _ _ H), (exact_steps _ _ 0%Z) by apply (ea_int _ _ H).
      fold (digits_value ds). rewrite <- inject_Z_mult. destruct neg; f_equiv; lia.
    - rewrite (ea_int _ _ H). change (inject_Z 1) with 1. ring.
  Qed.
End Exact.

(** ** Rounding *)
Local Open Scope Q_scope.

Global Instance fl_proper : Proper (Qeq ==> eq) fl.
Proof.
  intros x y E. unfold fl. destruct (Qeq_dec y 0) as [H0|Hn].
  - assert (∀ z, z == 0 → Q2Qc (inject_Z (rne (z / pow2 (exponent z))) * pow2 (exponent z)) = Q2Qc 0) as Hz.
    { intros z Hz. generalize (exponent z). intros e. apply Qc_is_canon.
      assert (this (Q2Qc (inject_Z (rne (z / pow2 e)) * pow2 e)) ==
        inject_Z (rne (z / pow2 e)) * pow2 e) as -> by apply Qred_correct.
      assert (rne (z / pow2 e) = 0%Z) as ->.
      { apply rne_near. rewrite Hz. unfold Qdiv. rewrite Qmult_0_l. done. }
      change (this (Q2Qc 0)) with 0. change (inject_Z 0) with 0. ring. }
    rewrite !Hz; [done|done|by rewrite E].
  - assert (¬ x == 0) as Hnx by (by rewrite E).
    assert (exponent x = exponent y) as ->.
    { pose proof (exponent_low y Hn) as L. pose proof (exponent_high y Hn) as U. rewrite <- pow2_plus in L, U.
      rewrite (exponent_unique x (52 + exponent y)); [lia|by rewrite E|].
      rewrite E. by replace (52 + exponent y + 1)%Z with (53 + exponent y)%Z by lia. }
    by rewrite (rne_proper _ _ (Qdiv_comp _ _ E _ _ (Qeq_refl _))).
Qed.

Lemma fl_whole x n : x == inject_Z n → (Z.abs n <= 2 ^ 53)%Z → this (fl x) == inject_Z n.
Proof. intros -> Hn. rewrite (fl_int n Hn). apply Qred_correct. Qed.

(** relative errors *)
Definition rel (A x y : Q) : Prop := 1 <= A ∧ Qabs (x - y) <= Qabs y * (A - 1).

Lemma rel_eq x y : x == y → rel 1 x y.
Proof. intros E. split; [lra|]. assert (x - y == 0) as -> by lra. change (Qabs 0) with 0. lra. Qed.
Lemma rel_mono A B x y : rel A x y → A <= B → rel B x y.
Proof.
  intros (HA & H) HB. split; [lra|]. eapply Qle_trans; [exact H|].
  rewrite (Qmult_comm (Qabs y)), (Qmult_comm (Qabs y) (B - 1)). apply Qmult_le_compat_r; [lra|apply Qabs_nonneg].
Qed.
Lemma rel_abs A x y : rel A x y → Qabs x <= Qabs y * A.
Proof.
  intros (HA & H). pose proof (Qabs_triangle (x - y) y) as T.
  assert (x - y + y == x) as E by ring. rewrite E in T. lra.
Qed.
Lemma rel_fl A x y : rel A x y → rel (A * (1 + one_part)) (this (fl x)) y.
Proof.
  intros Hr. pose proof (rel_abs _ _ _ Hr) as Ha. destruct Hr as (HA & H).
  assert (0 < one_part) as Hp by done. split.
  - assert (0 <= (A - 1) * one_part) by (apply Qmult_le_0_compat; lra). lra.
  - pose proof (Qabs_triangle (this (fl x) - x) (x - y)) as T.
    assert (this (fl x) - x + (x - y) == this (fl x) - y) as E by ring. rewrite E in T.
    pose proof (fl_err x) as F. change u53 with one_part in F.
    assert (Qabs x * one_part <= Qabs y * A * one_part) by (apply Qmult_le_compat_r; lra). lra.
Qed.
Lemma rel_add A x y x' y' : 0 <= y → 0 <= y' → rel A x y → rel A x' y' → rel A (x + x') (y + y').
Proof.
  intros Hy Hy' (HA & H) (_ & H'). split; [done|]. 
  rewrite (Qabs_pos y) in H by done. rewrite (Qabs_pos y') in H' by done. rewrite (Qabs_pos (y + y')) by lra.
  pose proof (Qabs_triangle (x - y) (x' - y')) as T.
  assert (x - y + (x' - y') == x + x' - (y + y')) as E by ring. rewrite E in T. lra.
Qed.
Lemma rel_mul A B x y x' y' : rel A x y → rel B x' y' → rel (A * B) (x * x') (y * y').
Proof.
  intros (HA & H) Hr. pose proof (rel_abs _ _ _ Hr) as Ha. destruct Hr as (HB & H').
  pose proof (Qabs_nonneg y) as Hy. pose proof (Qabs_nonneg y') as Hy'. split.
  - assert (0 <= (A - 1) * (B - 1)) by (apply Qmult_le_0_compat; lra). lra.
  - pose proof (Qabs_triangle ((x - y) * x') (y * (x' - y'))) as T.
    assert ((x - y) * x' + y * (x' - y') == x * x' - y * y') as E by ring. rewrite E in T.
    rewrite !Qabs_Qmult in T. rewrite !Qabs_Qmult. set (z := Qabs y) in *. set (z' := Qabs y') in *.
    assert (Qabs (x - y) * Qabs x' <= z * (A - 1) * (z' * B)) as H1.
    { apply Qle_trans with (z * (A - 1) * Qabs x').
      - apply Qmult_le_compat_r; [done|apply Qabs_nonneg].
      - rewrite (Qmult_comm _ (Qabs x')), (Qmult_comm _ (z' * B)). apply Qmult_le_compat_r; [done|].
        apply Qmult_le_0_compat; lra. }
    assert (z * Qabs (x' - y') <= z * (z' * (B - 1))) as H2.
    { rewrite (Qmult_comm z), (Qmult_comm z (z' * _)). by apply Qmult_le_compat_r. }
    assert (z * (A - 1) * (z' * B) + z * (z' * (B - 1)) == z * z' * (A * B - 1)) as E2 by ring. lra.
Qed.

Definition U (n : Z) : Q := (1 + one_part) ^ n.
Lemma U_one n : (0 <= n)%Z → 1 <= U n.
Proof.
  intros Hn. pattern n. apply natlike_ind; [done| |done]. intros k Hk IH. unfold U in *.
  rewrite <- Z.add_1_l, Qpower_plus by done.
  change ((1 + one_part) ^ 1) with (1 + one_part). assert (0 < one_part) by done.
  assert (0 <= one_part * ((1 + one_part) ^ k - 1)) by (apply Qmult_le_0_compat; lra). lra.
Qed.
Lemma U_plus a b : U (a + b) == U a * U b.
Proof. by apply Qpower_plus. Qed.
Lemma U_mono a b : (a <= b)%Z → 0 <= U a → U a <= U b.
Proof.
  intros Hab H. assert (U b == U (b - a) * U a) as -> by (rewrite <- U_plus; by replace (b - a + a)%Z with b by lia).
  pose proof (U_one (b - a) ltac:(lia)).
  assert (0 <= (U (b - a) - 1) * U a) by (apply Qmult_le_0_compat; lra). lra.
Qed.
Lemma rel_U_mono a b x y : rel (U a) x y → (a <= b)%Z → rel (U b) x y.
Proof. intros Hr Hab. eapply rel_mono; [exact Hr|]. apply U_mono; [done|]. destruct Hr as (? & _). lra. Qed.
Lemma rel_proper A x y A' x' y' : A == A' → x == x' → y == y' → rel A x y → rel A' x' y'.
Proof. unfold rel. intros E1 E2 E3. by rewrite E1, E2, E3. Qed.
Lemma rel_U_fl a x y : rel (U a) x y → rel (U (a + 1)) (this (fl x)) y.
Proof. intros Hr%rel_fl. eapply rel_proper; [|reflexivity|reflexivity|exact Hr]. rewrite U_plus. done. Qed.
Lemma rel_U_mul a b x y x' y' : rel (U a) x y → rel (U b) x' y' → rel (U (a + b)) (x * x') (y * y').
Proof. intros H1 H2. eapply rel_proper; [|reflexivity|reflexivity|exact (rel_mul _ _ _ _ _ _ H1 H2)]. by rewrite U_plus. Qed.
Lemma rel_U_eq x y : x == y → rel (U 0) x y.
Proof. intros E. by apply rel_eq. Qed.
Lemma nonneg_Z n : (0 <= n)%Z → 0 <= inject_Z n.
Proof. intros Hn. change 0 with (inject_Z 0). by rewrite <- Zle_Qle. Qed.

Section Rounded.
  Context (val : Z → Q) (fa : float_arith) (H : rounded_arith val fa).

  Lemma small_int n : (Z.abs n <= 2 ^ 53)%Z → val (f_int fa n) == inject_Z n.
  Proof. intros Hn. rewrite (ra_int _ _ H). by apply fl_whole. Qed.
  Lemma digit_int c : digit c → val (f_digit fa c) == inject_Z (c - 48).
  Proof. intros Hc. unfold f_digit. apply small_int. unfold digit in Hc. lia. Qed.

  (** whole numbers *)
  Lemma round_steps ds v m : Forall digit ds → val v == inject_Z m → (0 <= m)%Z →
    (fold_left (λ v d, 10 * v + (d - 48))%Z ds m <= 2 ^ 53)%Z →
    val (fold_left (int_step fa) ds v) == inject_Z (fold_left (λ v d, 10 * v + (d - 48))%Z ds m).
  Proof.
    intros Hds. revert v m. induction Hds as [|d ds Hd Hds IH]; intros v m Hv Hm Hb; [done|]. cbn [fold_left] in *.
    assert (10 * m + (d - 48) <= 2 ^ 53)%Z as Hle.
    { rewrite fold_digits in Hb. pose proof (digits_bound ds Hds). unfold digit in Hd.
      assert (1 <= 10 ^ zlen ds)%Z by (assert (0 < 10 ^ zlen ds)%Z by (apply Z.pow_pos_nonneg; lia); lia). nia. }
    unfold digit in Hd. apply IH; [|lia|done].
    unfold int_step. rewrite (ra_add _ _ H), digit_int by done.
    assert (val (f_mul fa v (f_int fa 10)) == inject_Z (10 * m)) as E.
    { rewrite (ra_mul _ _ H), (small_int 10) by done. apply fl_whole; [|lia]. rewrite Hv, inject_Z_mult. ring. }
    apply fl_whole; [|lia]. by rewrite E, <- inject_Z_plus.
  Qed.
  Lemma round_start w : Forall digit w → (digits_value w <= 2 ^ 53)%Z → val (start_value fa w) == inject_Z (digits_value w).
  Proof.
    intros Hw Hb. destruct Hw as [|c r Hc Hr]; [by apply small_int|]. unfold digits_value in *. cbn [start_value fold_left] in *.
    apply round_steps; [done| |unfold digit in Hc; lia|done]. rewrite digit_int by done. done.
  Qed.
  Lemma round_zeros ds v l n : Forall (λ c, c = 48%Z) ds → val v == inject_Z n → (Z.abs n <= 2 ^ 53)%Z →
    val (fold_left (frac_step fa) ds (v, l)).1 == inject_Z n.
  Proof.
    intros Hds. revert v l. induction Hds as [|d ds -> _ IH]; intros v l Hv Hn; [done|]. cbn [fold_left].
    unfold frac_step at 2. cbn [fst snd]. apply IH; [|done].
    rewrite (ra_add _ _ H). apply fl_whole; [|done]. rewrite Hv, !(ra_mul _ _ H), digit_int by (unfold digit; lia).
    assert (this (fl (inject_Z (48 - 48) * this (fl (val l * val (f_tenth fa))))) == inject_Z 0) as ->.
    { apply fl_whole; [|done]. change (inject_Z (48 - 48)) with 0. change (inject_Z 0) with 0. ring. }
    change (inject_Z 0) with 0. ring.
  Qed.
  Lemma round_sign x n neg : val x == inject_Z n → (Z.abs n <= 2 ^ 53)%Z →
    val (f_mul fa (f_mul fa x (f_int fa (if neg : bool then -1 else 1)%Z)) (f_int fa 1)) == inject_Z (if neg then - n else n).
  Proof.
    intros Hx Hn. rewrite (ra_mul _ _ H), (small_int 1) by done. apply fl_whole; [|destruct neg; lia].
    change (inject_Z 1) with 1. rewrite Qmult_1_r. rewrite (ra_mul _ _ H), small_int by (by destruct neg).
    apply fl_whole; [|destruct neg; lia]. rewrite Hx, <- inject_Z_mult. f_equiv. destruct neg; lia.
  Qed.

  Lemma whole_value p : Forall digit (d_whole p) → Forall (λ c, c = 48%Z) (d_fraction p) → d_exponent p = None →
    (digits_value (d_whole p) <= 2 ^ 53)%Z → val (machine_value fa p) == decimal_value p.
  Proof.
    intros Hw Hf He Hb. unfold machine_value, decimal_value. cbv zeta. rewrite He.
    rewrite round_sign with (n := digits_value (d_whole p)).
    - rewrite digits_app, inject_Z_plus, inject_Z_mult.
      assert (digits_value (d_fraction p) = 0%Z) as ->.
      { clear -Hf. induction Hf as [|c ds -> _ IH]; [done|]. rewrite digits_cons, IH. lia. }
      pose proof (ten_tenth (length (d_fraction p))) as E.
      set (t := inject_Z (10 ^ zlen (d_fraction p))) in *. set (u := (1 # 10) ^ zlen (d_fraction p)) in *.
      set (w := digits_value (d_whole p)).
      assert ((inject_Z w * t + inject_Z 0) * u == inject_Z w) as Hw'.
      { transitivity (inject_Z w * (t * u) + inject_Z 0 * u); [ring|]. rewrite E. change (inject_Z 0) with 0. ring. }
      destruct (d_negative p); rewrite Hw'; [by rewrite inject_Z_opp|done].
    - unfold machine_mantissa. fold (start_value fa (d_whole p)). pose proof (digits_bound _ Hw).
      apply round_zeros; [done|by apply round_start|lia].
    - pose proof (digits_bound _ Hw). lia.
  Qed.

  (** all numbers *)
  Lemma rel_steps ds v m k : Forall digit ds → (0 <= m)%Z → (0 <= k)%Z → rel (U k) (val v) (inject_Z m) →
    rel (U (k + 2 * zlen ds)) (val (fold_left (int_step fa) ds v)) (inject_Z (fold_left (λ v d, 10 * v + (d - 48))%Z ds m)).
  Proof.
    intros Hds. revert v m k. induction Hds as [|d ds Hd Hds IH]; intros v m k Hm Hk Hr.
    - cbn [fold_left List.length]. by replace (k + 2 * Z.of_nat 0)%Z with k by lia.
    - cbn [fold_left List.length]. replace (k + 2 * Z.of_nat (S (length ds)))%Z with ((k + 2) + 2 * zlen ds)%Z by lia.
      assert (0 <= d - 48)%Z as Hd0 by (unfold digit in Hd; lia). apply IH; [lia|lia|].
      unfold int_step. eapply rel_proper; [reflexivity|symmetry; apply (ra_add _ _ H)|reflexivity|].
      replace (k + 2)%Z with (k + 1 + 1)%Z by lia. apply rel_U_fl.
      rewrite inject_Z_plus. apply rel_add; [apply nonneg_Z; lia|by apply nonneg_Z| |].
      + eapply rel_proper; [reflexivity|symmetry; apply (ra_mul _ _ H)|reflexivity|]. apply rel_U_fl.
        eapply rel_proper; [reflexivity|reflexivity| |].
        2:{ replace k with (k + 0)%Z by lia. apply rel_U_mul; [exact Hr|]. apply rel_U_eq. by apply (small_int 10). }
        rewrite inject_Z_mult. ring.
      + apply rel_U_mono with 0%Z; [|lia]. apply rel_U_eq. by apply digit_int.
  Qed.
  Lemma rel_start w : Forall digit w → rel (U (2 * zlen w)) (val (start_value fa w)) (inject_Z (digits_value w)).
  Proof.
    intros Hw. destruct Hw as [|c r Hc Hr].
    - apply rel_U_eq. by apply small_int.
    - unfold digits_value. cbn [start_value fold_left List.length].
      apply rel_U_mono with (0 + 2 * zlen r)%Z; [|lia]. unfold digit in Hc. apply rel_steps; [done|lia|lia|].
      apply rel_U_eq. by rewrite digit_int.
  Qed.
  Lemma rel_frac ds v l y z k j : Forall digit ds → (0 <= j)%Z → (j + 2 <= k)%Z → 0 <= y → 0 <= z →
    rel (U k) (val v) y → rel (U j) (val l) z →
    rel (U (k + 2 * zlen ds)) (val (fold_left (frac_step fa) ds (v, l)).1)
      (y + z * (inject_Z (digits_value ds) * (1 # 10) ^ zlen ds)).
  Proof.
    intros Hds. revert v l y z k j. induction Hds as [|d ds Hd Hds IH]; intros v l y z k j Hj Hjk Hy Hz Hv Hl.
    - cbn [fold_left List.length]. replace (k + 2 * Z.of_nat 0)%Z with k by lia.
      eapply rel_proper; [reflexivity|reflexivity| |exact Hv]. change (digits_value []) with 0%Z. change (inject_Z 0) with 0. ring.
    - cbn [fold_left List.length]. replace (k + 2 * Z.of_nat (S (length ds)))%Z with ((k + 2) + 2 * zlen ds)%Z by lia.
      assert (0 <= inject_Z (d - 48)) as Hd0 by (apply nonneg_Z; unfold digit in Hd; lia).
      assert (rel (U (j + 2)) (val (f_mul fa l (f_tenth fa))) (z * (1 # 10))) as Hl'.
      { eapply rel_proper; [reflexivity|symmetry; apply (ra_mul _ _ H)|reflexivity|].
        replace (j + 2)%Z with (j + 1 + 1)%Z by lia. apply rel_U_fl. apply rel_U_mul; [done|].
        eapply rel_proper; [reflexivity|symmetry; apply (ra_tenth _ _ H)|reflexivity|].
        change 1%Z with (0 + 1)%Z. apply rel_U_fl. by apply rel_U_eq. }
      assert (0 <= z * (1 # 10)) as Hz' by lra.
      assert (0 <= inject_Z (d - 48) * (z * (1 # 10))) as Hdz by (by apply Qmult_le_0_compat).
      eapply rel_proper; [reflexivity|reflexivity| |].
      2:{ unfold frac_step at 2. cbn [fst snd].
          apply IH with (y := (y + inject_Z (d - 48) * (z * (1 # 10)))) (z := z * (1 # 10)) (j := (j + 2)%Z);
            [lia|lia|lra|done| |exact Hl'].
          eapply rel_proper; [reflexivity|symmetry; apply (ra_add _ _ H)|reflexivity|].
          replace (k + 2)%Z with (k + 1 + 1)%Z by lia. apply rel_U_fl. apply rel_add; [done|done| |].
          - apply rel_U_mono with k; [done|lia].
          - apply rel_U_mono with (j + 3)%Z; [|lia].
            eapply rel_proper; [reflexivity|symmetry; apply (ra_mul _ _ H)|reflexivity|].
            replace (j + 3)%Z with (0 + (j + 2) + 1)%Z by lia. apply rel_U_fl. apply rel_U_mul; [|done].
            apply rel_U_eq. by apply digit_int. }
      rewrite digits_cons. rewrite tenth_S, inject_Z_plus, inject_Z_mult.
      pose proof (ten_tenth (length ds)) as E.
      set (t := inject_Z (10 ^ zlen ds)) in *. set (u := (1 # 10) ^ zlen ds) in *.
      transitivity (y + z * ((1 # 10) * (inject_Z (d - 48) * (t * u) + inject_Z (digits_value ds) * u))).
      + rewrite E. ring.
      + ring.
  Qed.

  Lemma close_value p P :
    Forall digit (d_whole p) → Forall digit (d_fraction p) →
    (∀ neg ds, d_exponent p = Some (neg, ds) → Forall digit ds ∧ (digits_value ds <= 2 ^ 53)%Z) →
    1 <= P → (∀ x n, val x == inject_Z n → Qabs (val (f_pow10 fa x) - (10 # 1) ^ n) <= (10 # 1) ^ n * (P - 1)) →
    Qabs (val (machine_value fa p) - decimal_value p) <=
      Qabs (decimal_value p) * ((1 + one_part) ^ (2 * zlen (d_whole p ++ d_fraction p) + 4) * P - 1).
  Proof.
    intros Hw Hf He HP Hpow. set (n := zlen (d_whole p ++ d_fraction p)).
    change ((1 + one_part) ^ (2 * n + 4)) with (U (2 * n + 4)).
    set (M := inject_Z (digits_value (d_whole p ++ d_fraction p)) * (1 # 10) ^ zlen (d_fraction p)).
    assert (rel (U (2 * n + 2)) (val (machine_mantissa fa p).1) M) as Hm.
    { unfold machine_mantissa. fold (start_value fa (d_whole p)).
      pose proof (digits_bound _ Hw) as Bw.
      eapply rel_proper; [| | |apply (rel_frac (d_fraction p) (start_value fa (d_whole p)) (f_int fa 1) (inject_Z (digits_value (d_whole p))) 1
        (2 * zlen (d_whole p) + 2) 0)].
      - unfold n. rewrite app_length. replace (2 * zlen (d_whole p) + 2 + 2 * zlen (d_fraction p))%Z with
          (2 * Z.of_nat (length (d_whole p) + length (d_fraction p)) + 2)%Z by lia. reflexivity.
      - reflexivity.
      - unfold M. rewrite digits_app, inject_Z_plus, inject_Z_mult.
        pose proof (ten_tenth (length (d_fraction p))) as E.
        set (t := inject_Z (10 ^ zlen (d_fraction p))) in *. set (u := (1 # 10) ^ zlen (d_fraction p)) in *.
        transitivity (inject_Z (digits_value (d_whole p)) * (t * u) + inject_Z (digits_value (d_fraction p)) * u).
        + rewrite E. ring.
        + ring.
      - done.
      - lia.
      - lia.
      - apply nonneg_Z. lia.
      - lra.
      - eapply rel_U_mono; [by apply rel_start|lia].
      - apply rel_U_eq. by apply small_int. }
    set (S := if d_negative p then - M else M).
    assert (rel (U (2 * n + 3)) (val (f_mul fa (machine_mantissa fa p).1 (f_int fa (if d_negative p then -1 else 1)%Z))) S) as Hs.
    { eapply rel_proper; [reflexivity|symmetry; apply (ra_mul _ _ H)| |].
      2:{ replace (2 * n + 3)%Z with (2 * n + 2 + 0 + 1)%Z by lia. apply rel_U_fl. apply rel_U_mul; [exact Hm|].
          apply rel_U_eq. apply small_int. by destruct (d_negative p). }
      unfold S. destruct (d_negative p); [change (inject_Z (-1)) with (-1)|change (inject_Z 1) with 1]; ring. }
    assert (rel (U (2 * n + 4) * P) (val (machine_value fa p)) (decimal_value p)) as [_ Hr]; [|exact Hr].
    unfold machine_value, decimal_value. cbv zeta. fold M. fold S.
    destruct (d_exponent p) as [[neg ds]|] eqn:Ee.
    - destruct (He neg ds eq_refl) as [Hds Hb]. pose proof (digits_bound _ Hds) as Bd.
      eapply rel_proper; [|symmetry; apply (ra_mul _ _ H)|reflexivity|].
      2:{ apply rel_fl. apply rel_mul; [exact Hs|]. split; [exact HP|].
          set (k := (if neg then - digits_value ds else digits_value ds)%Z).
          rewrite (Qabs_pos ((10 # 1) ^ k)) by (by apply Qpower_pos).
          apply Hpow. rewrite (ra_mul _ _ H). apply fl_whole; [|unfold k; destruct neg; lia].
          rewrite small_int by (by destruct neg). rewrite (round_steps ds _ 0) by (first [done|lia|by apply small_int]).
          fold (digits_value ds). rewrite <- inject_Z_mult. unfold k. destruct neg; f_equiv; lia. }
      replace (2 * n + 4)%Z with (2 * n + 3 + 1)%Z by lia. rewrite (U_plus (2 * n + 3) 1). change (U 1) with (1 + one_part). ring.
    - eapply rel_proper; [reflexivity|symmetry; apply (ra_mul _ _ H)|reflexivity|].
      apply rel_mono with (U (2 * n + 4)).
      + replace (2 * n + 4)%Z with (2 * n + 3 + 0 + 1)%Z by lia. apply rel_U_fl.
        eapply rel_proper; [reflexivity|reflexivity| |apply rel_U_mul; [exact Hs|by apply rel_U_eq, small_int]].
        change (inject_Z 1) with 1. ring.
      + pose proof (U_one (2 * n + 4) ltac:(lia)) as H1.
        assert (0 <= U (2 * n + 4) * (P - 1)) by (apply Qmult_le_0_compat; lra). lra.
  Qed.
End Rounded.

(** 3 times 0.1 *)
Lemma three_tenths : this (fl (this (fl 3) * this (fl (this (fl 1) * this (fl (1 # 10)))))) == 1351079888211149 # 4503599627370496.
Proof. by vm_compute. Qed.

(** ** The witnesses *)
Lemma number_code q : coded_number (code_of q) = q.
Proof. unfold coded_number, code_of. by rewrite decode_encode. Qed.
Lemma floats_exact : exact_arith coded_number (floats_by Q2Qc).
Proof.
  split; intros; cbn [floats_by f_int f_add f_mul f_tenth f_pow10]; rewrite number_code; try apply Qred_correct.
  assert (this (Q2Qc ((10 # 1) ^ Qfloor (this (coded_number x)))) == (10 # 1) ^ Qfloor (this (coded_number x))) as -> by apply Qred_correct.
  rewrite (Qfloor_comp _ _ H), Qfloor_Z. done.
Qed.
Lemma floats_rounded : rounded_arith coded_number (floats_by fl).
Proof. split; intros; cbn [floats_by f_int f_add f_mul f_tenth]; by rewrite number_code. Qed.
Lemma floats_pow x n : coded_number x == inject_Z n →
  Qabs (coded_number (f_pow10 (floats_by fl) x) - (10 # 1) ^ n) <= (10 # 1) ^ n * (1 - 1).
Proof.
  intros H. cbn [floats_by f_pow10]. rewrite number_code.
  assert (this (Q2Qc ((10 # 1) ^ Qfloor (this (coded_number x)))) == (10 # 1) ^ Qfloor (this (coded_number x))) as -> by apply Qred_correct.
  rewrite (Qfloor_comp _ _ H), Qfloor_Z.
  assert ((10 # 1) ^ n - (10 # 1) ^ n == 0) as -> by ring. change (Qabs 0) with 0. lra.
Qed.
