From Verif.Spec Require Export Binary64.
From Coq Require Import Lqa Qpower.
Local Open Scope Q_scope.

Lemma rne_err x : Qabs (inject_Z (rne x) - x) <= 1 # 2.
Proof.
  unfold rne. pose proof (Qfloor_le x) as H1. pose proof (Qlt_floor x) as H2.
  rewrite inject_Z_plus in H2. set (f := Qfloor x) in *.
  change (inject_Z 1) with 1 in H2.
  destruct (Qcompare_spec (x - inject_Z f) (1 # 2)) as [H|H|H]; [destruct (Z.even f)| |];
    rewrite ?inject_Z_plus; change (inject_Z 1) with 1; apply Qabs_Qle_condition; lra.
Qed.
Lemma rne_near x n : Qabs (x - inject_Z n) < 1 # 2 → rne x = n.
Proof.
  intros H. pose proof (rne_err x) as E.
  apply Qabs_Qlt_condition in H as [H1 H2]. apply Qabs_Qle_condition in E as [E1 E2].
  assert (inject_Z (rne x) < inject_Z (n + 1)) as A by (rewrite inject_Z_plus; change (inject_Z 1) with 1; lra).
  assert (inject_Z (n - 1) < inject_Z (rne x)) as B.
  { unfold Z.sub. rewrite inject_Z_plus. change (inject_Z (- (1))) with (-1). lra. }
  rewrite <- Zlt_Qlt in A, B. lia.
Qed.

Lemma pow2_pos e : 0 < pow2 e.
Proof.
  unfold pow2. destruct (Z.leb_spec 0 e) as [H|H].
  - change 0 with (inject_Z 0). rewrite <- Zlt_Qlt. by apply Z.pow_pos_nonneg.
  - apply Qinv_lt_0_compat. change 0 with (inject_Z 0). rewrite <- Zlt_Qlt. apply Z.pow_pos_nonneg; lia.
Qed.
(** powers by [Qpower] *)
Lemma pow2_qpower e : pow2 e == Qpower 2 e.
Proof.
  unfold pow2. destruct (Z.leb_spec 0 e) as [H|H].
  - rewrite Zpower_Qpower by done. done.
  - rewrite Zpower_Qpower by lia. change (inject_Z 2) with 2. rewrite Qpower_opp. by rewrite Qinv_involutive.
Qed.
Lemma pow2_plus a b : pow2 (a + b) == pow2 a * pow2 b.
Proof. rewrite !pow2_qpower. apply Qpower_plus. done. Qed.
Lemma pow2_nonneg e : (0 <= e)%Z → pow2 e = inject_Z (2 ^ e).
Proof. intros H. unfold pow2. by destruct (Z.leb_spec 0 e); [|lia]. Qed.

(** the bounds that define the exponent *)
Lemma exponent_low x : ¬ x == 0 → pow2 52 * pow2 (exponent x) <= Qabs x.
Proof.
  intros Hx. rewrite <- pow2_plus. unfold exponent.
  set (n := Z.abs (Qnum x)). set (d := Z.pos (Qden x)). set (k := (Z.log2 n - Z.log2 d)%Z).
  assert (Qabs x == inject_Z n / inject_Z d) as Hq.
  { destruct x as [a b]. unfold n, d. cbn [Qabs Qnum Qden]. rewrite Qmake_Qdiv. done. }
  assert (0 < n)%Z as Hn.
  { unfold n. destruct (Z.eq_dec (Qnum x) 0) as [E|E]; [|lia]. exfalso. apply Hx. unfold Qeq. rewrite E. done. }
  destruct (Qle_bool (pow2 k) (Qabs x)) eqn:E.
  - apply Qle_bool_iff in E. by replace (52 + (k - 52))%Z with k by lia.
  - replace (52 + (k - 53))%Z with (k - 1)%Z by lia. rewrite Hq.
    destruct (Z.log2_spec n Hn) as [A _]. destruct (Z.log2_spec d eq_refl) as [_ B].
    pose proof (Z.log2_nonneg n). pose proof (Z.log2_nonneg d).
    assert (0 < inject_Z d) as Hd by (change 0 with (inject_Z 0); by rewrite <- Zlt_Qlt).
    apply Qle_shift_div_l; [done|].
    (* pow2 (k-1) * d <= n *)
    apply Qle_trans with (pow2 (k - 1) * pow2 (Z.succ (Z.log2 d))).
    + apply Qmult_le_l; [apply pow2_pos|]. rewrite pow2_nonneg by lia. rewrite <- Zle_Qle. lia.
    + rewrite <- pow2_plus. replace (k - 1 + Z.succ (Z.log2 d))%Z with (Z.log2 n) by lia.
      rewrite pow2_nonneg by done. by rewrite <- Zle_Qle.
Qed.

Definition u53 : Q := 1 # 9007199254740992.
Lemma fl_err x : Qabs (this (fl x) - x) <= Qabs x * u53.
Proof.
  unfold fl. set (e := exponent x).
  assert (this (Q2Qc (inject_Z (rne (x / pow2 e)) * pow2 e)) == inject_Z (rne (x / pow2 e)) * pow2 e) as ->
    by apply Qred_correct.
  pose proof (pow2_pos e) as Hp.
  assert (inject_Z (rne (x / pow2 e)) * pow2 e - x == (inject_Z (rne (x / pow2 e)) - x / pow2 e) * pow2 e) as ->.
  { field. lra. }
  rewrite Qabs_Qmult. rewrite (Qabs_pos (pow2 e)) by lra.
  pose proof (rne_err (x / pow2 e)) as He. set (y := Qabs (inject_Z (rne (x / pow2 e)) - x / pow2 e)) in *.
  destruct (Qeq_dec x 0) as [E|E].
  - assert (y == 0) as ->.
    { unfold y. assert (rne (x / pow2 e) = 0%Z) as ->.
      { apply rne_near. rewrite E. unfold Qdiv. rewrite Qmult_0_l. done. }
      rewrite E. unfold Qdiv. rewrite Qmult_0_l. done. }
    rewrite E. done.
  - pose proof (exponent_low x E) as Hl. fold e in Hl.
    assert (pow2 52 == inject_Z 4503599627370496) as H52 by done. rewrite H52 in Hl.
    change (inject_Z 4503599627370496) with (4503599627370496 # 1) in Hl.
    assert (y * pow2 e <= (1 # 2) * pow2 e) by (by apply Qmult_le_compat_r; [|lra]).
    unfold u53. lra.
Qed.

(** integers up to 2^53 are floats *)
Lemma exponent_high x : ¬ x == 0 → Qabs x < pow2 53 * pow2 (exponent x).
Proof.
  intros Hx. rewrite <- pow2_plus. unfold exponent.
  set (n := Z.abs (Qnum x)). set (d := Z.pos (Qden x)). set (k := (Z.log2 n - Z.log2 d)%Z).
  assert (Qabs x == inject_Z n / inject_Z d) as Hq.
  { destruct x as [a b]. unfold n, d. cbn [Qabs Qnum Qden]. rewrite Qmake_Qdiv. done. }
  assert (0 < n)%Z as Hn.
  { unfold n. destruct (Z.eq_dec (Qnum x) 0) as [E|E]; [|lia]. exfalso. apply Hx. unfold Qeq. rewrite E. done. }
  destruct (Qle_bool (pow2 k) (Qabs x)) eqn:E.
  - replace (53 + (k - 52))%Z with (k + 1)%Z by lia. rewrite Hq.
    destruct (Z.log2_spec n Hn) as [_ A]. destruct (Z.log2_spec d eq_refl) as [B _].
    pose proof (Z.log2_nonneg n). pose proof (Z.log2_nonneg d).
    assert (0 < inject_Z d) as Hd by (change 0 with (inject_Z 0); by rewrite <- Zlt_Qlt).
    apply Qlt_shift_div_r; [done|].
    apply Qlt_le_trans with (pow2 (Z.succ (Z.log2 n))).
    + rewrite pow2_nonneg by lia. by rewrite <- Zlt_Qlt.
    + replace (Z.succ (Z.log2 n)) with (k + 1 + Z.log2 d)%Z by lia. rewrite pow2_plus.
      apply Qmult_le_l; [apply pow2_pos|]. rewrite pow2_nonneg by lia. by rewrite <- Zle_Qle.
  - replace (53 + (k - 53))%Z with k by lia.
    destruct (Qlt_le_dec (Qabs x) (pow2 k)) as [?|L]; [done|]. apply Qle_bool_iff in L. congruence.
Qed.
Lemma rne_int z : rne (inject_Z z) = z.
Proof. apply rne_near. assert (inject_Z z - inject_Z z == 0) as -> by ring. done. Qed.
Global Instance rne_proper : Proper (Qeq ==> eq) rne.
Proof.
  intros x y H. unfold rne. rewrite (Qfloor_comp x y H).
  assert (Qcompare (x - inject_Z (Qfloor y)) (1 # 2) = Qcompare (y - inject_Z (Qfloor y)) (1 # 2)) as ->.
  { apply Qcompare_comp; [by rewrite H|done]. }
  done.
Qed.
Lemma fl_exact x z : x == inject_Z z * pow2 (exponent x) → this (fl x) == x.
Proof.
  intros H. unfold fl. set (e := exponent x) in *. pose proof (pow2_pos e).
  assert (this (Q2Qc (inject_Z (rne (x / pow2 e)) * pow2 e)) == inject_Z (rne (x / pow2 e)) * pow2 e) as ->
    by apply Qred_correct.
  assert (x / pow2 e == inject_Z z) as -> by (rewrite H; field; lra).
  by rewrite rne_int.
Qed.
Lemma fl_int z : (Z.abs z <= 2 ^ 53)%Z → fl (inject_Z z) = Q2Qc (inject_Z z).
Proof.
  intros Hz. apply Qc_is_canon.
  assert (this (Q2Qc (inject_Z z)) == inject_Z z) as -> by apply Qred_correct.
  destruct (Z.eq_dec z 0) as [->|Hz0]; [done|].
  destruct (Z.eq_dec (Z.abs z) (2 ^ 53)) as [E|E].
  { destruct (Z.abs_eq_or_opp z) as [A|A]; rewrite A in E.
    - subst z. by vm_compute.
    - replace z with (- (2 ^ 53))%Z by lia. by vm_compute. }
  set (e := exponent (inject_Z z)).
  assert (e <= 0)%Z as He.
  { pose proof (exponent_low (inject_Z z)) as Hl. fold e in Hl.
    destruct (Z_le_gt_dec e 0) as [?|G]; [done|]. exfalso.
    assert (pow2 52 * pow2 e <= Qabs (inject_Z z)) as L. { apply Hl. intros A. apply Hz0. unfold Qeq in A. cbn in A. lia. }
    rewrite <- pow2_plus, pow2_nonneg in L by lia. change (Qabs (inject_Z z)) with (inject_Z (Z.abs z)) in L.
    rewrite <- Zle_Qle in L. assert (2 ^ 53 <= 2 ^ (52 + e))%Z by (apply Z.pow_le_mono_r; lia). lia. }
  apply (fl_exact _ (z * 2 ^ (- e))). fold e. rewrite inject_Z_mult, <- (pow2_nonneg (- e)) by lia.
  rewrite <- Qmult_assoc, <- pow2_plus. replace (- e + e)%Z with 0%Z by lia. change (pow2 0) with 1. ring.
Qed.

Lemma qtrunc_near x : Qabs (x - inject_Z (qtrunc x)) <= 1.
Proof.
  unfold qtrunc. destruct x as [a b]. cbn [Qnum Qden].
  pose proof (Z.quot_rem' a (Zpos b)) as H. pose proof (Z.rem_bound_abs a (Zpos b) ltac:(done)) as H2.
  set (q := Z.quot a (Zpos b)) in *. set (r := Z.rem a (Zpos b)) in *.
  apply Qabs_Qle_condition. unfold Qle, Qminus, Qplus, Qopp, inject_Z. cbn [Qnum Qden].
  split; rewrite ?Pos.mul_1_r; lia.
Qed.

(** rounding twice *)
Lemma pow2_lt a b : pow2 a < pow2 b → (a < b)%Z.
Proof.
  intros H. destruct (Z_lt_ge_dec a b) as [?|G]; [done|]. exfalso.
  assert (pow2 a == pow2 (a - b) * pow2 b) as E by (rewrite <- pow2_plus; by replace (a - b + b)%Z with a by lia).
  assert (1 <= pow2 (a - b)) as L.
  { rewrite pow2_nonneg by lia. change 1 with (inject_Z 1). rewrite <- Zle_Qle.
    assert (0 < 2 ^ (a - b))%Z by (apply Z.pow_pos_nonneg; lia). lia. }
  pose proof (pow2_pos b) as Hb. rewrite E in H.
  assert (1 * pow2 b <= pow2 (a - b) * pow2 b) by (apply Qmult_le_compat_r; [done|lra]). lra.
Qed.
Lemma exponent_unique y a : pow2 a <= Qabs y → Qabs y < pow2 (a + 1) → exponent y = (a - 52)%Z.
Proof.
  intros H1 H2. assert (¬ y == 0) as Hy.
  { intros E. rewrite E in H1. pose proof (pow2_pos a). change (Qabs 0) with 0 in H1. lra. }
  pose proof (exponent_low y Hy) as L. pose proof (exponent_high y Hy) as U. rewrite <- pow2_plus in L, U.
  assert (52 + exponent y < a + 1)%Z by (apply pow2_lt; lra).
  assert (a < 53 + exponent y)%Z by (apply pow2_lt; lra). lia.
Qed.
Lemma fl_idem x : fl (this (fl x)) = fl x.
Proof.
  destruct (Qeq_dec x 0) as [E|E].
  { assert (this (fl x) == 0) as F0.
    { pose proof (fl_err x) as H. assert (Qabs x == 0) as A by (rewrite E; done). rewrite A in H.
      assert (Qabs (this (fl x) - x) <= 0) as H' by lra.
      apply Qabs_Qle_condition in H'. lra. }
    apply Qc_is_canon. pose proof (fl_err (this (fl x))) as H.
    assert (Qabs (this (fl x)) == 0) as A by (rewrite F0; done). rewrite A in H.
    assert (Qabs (this (fl (this (fl x))) - this (fl x)) <= 0) as H' by lra.
    apply Qabs_Qle_condition in H'. lra. }
  set (e := exponent x). set (m := rne (x / pow2 e)).
  assert (this (fl x) == inject_Z m * pow2 e) as Hf by apply Qred_correct.
  pose proof (pow2_pos e) as Hp. pose proof (exponent_low x E) as L. pose proof (exponent_high x E) as U. fold e in L, U.
  set (y := x / pow2 e) in *. assert (Qabs x == Qabs y * pow2 e) as Hx.
  { rewrite <- (Qabs_pos (pow2 e)) at 1 by lra. rewrite <- Qabs_Qmult. unfold y. apply Qabs_wd. field. lra. }
  assert (pow2 52 <= Qabs y) as Ly.
  { destruct (Qlt_le_dec (Qabs y) (pow2 52)) as [A|A]; [|done]. exfalso.
    assert (Qabs y * pow2 e < pow2 52 * pow2 e) by (by apply Qmult_lt_r). lra. }
  assert (Qabs y < pow2 53) as Uy.
  { destruct (Qlt_le_dec (Qabs y) (pow2 53)) as [A|A]; [done|]. exfalso.
    assert (pow2 53 * pow2 e <= Qabs y * pow2 e) by (apply Qmult_le_compat_r; [done|lra]). lra. }
  pose proof (rne_err y) as Hm. fold m in Hm.
  (* 2^52 <= |m| <= 2^53 *)
  assert (pow2 52 - (1 # 2) <= Qabs (inject_Z m) ∧ Qabs (inject_Z m) < pow2 53 + (1 # 2)) as [Lm Um].
  { pose proof (Qabs_triangle (inject_Z m) (y - inject_Z m)) as T1.
    pose proof (Qabs_triangle y (inject_Z m - y)) as T2.
    assert (inject_Z m + (y - inject_Z m) == y) as A1 by ring. rewrite A1 in T1.
    assert (y + (inject_Z m - y) == inject_Z m) as A2 by ring. rewrite A2 in T2.
    assert (Qabs (y - inject_Z m) == Qabs (inject_Z m - y)) as A3.
    { rewrite <- Qabs_opp. apply Qabs_wd. ring. }
    rewrite A3 in T1. lra. }
  change (Qabs (inject_Z m)) with (inject_Z (Z.abs m)) in Lm, Um.
  change (pow2 52) with (inject_Z (2 ^ 52)) in Lm. change (pow2 53) with (inject_Z (2 ^ 53)) in Um.
  assert (2 ^ 52 <= Z.abs m <= 2 ^ 53)%Z as [Bm1 Bm2].
  { split.
    - destruct (Z_le_gt_dec (2 ^ 52) (Z.abs m)) as [?|G]; [done|]. exfalso.
      assert (inject_Z (Z.abs m + 1) <= inject_Z (2 ^ 52)) as G' by (rewrite <- Zle_Qle; lia).
      rewrite inject_Z_plus in G'. change (inject_Z 1) with 1 in G'. lra.
    - destruct (Z_le_gt_dec (Z.abs m) (2 ^ 53)) as [?|G]; [done|]. exfalso.
      assert (inject_Z (2 ^ 53 + 1) <= inject_Z (Z.abs m)) as G' by (rewrite <- Zle_Qle; lia).
      rewrite inject_Z_plus in G'. change (inject_Z 1) with 1 in G'. lra. }
  assert (Qabs (this (fl x)) == inject_Z (Z.abs m) * pow2 e) as Ha.
  { rewrite Hf, Qabs_Qmult, (Qabs_pos (pow2 e)) by lra. done. }
  apply Qc_is_canon. destruct (Z.eq_dec (Z.abs m) (2 ^ 53)) as [Em|Em].
  - assert (exponent (this (fl x)) = e + 1)%Z as Ee.
    { replace (e + 1)%Z with ((53 + e) - 52)%Z by lia. apply exponent_unique; rewrite Ha, Em.
      - rewrite pow2_plus. apply Qle_refl.
      - rewrite !pow2_plus. change (inject_Z (2 ^ 53)) with (pow2 53). change (pow2 1) with 2.
        pose proof (pow2_pos 53). assert (0 < pow2 53 * pow2 e) by (by apply Qmult_lt_0_compat). lra. }
    apply (fl_exact _ (Z.sgn m * 2 ^ 52)). rewrite Ee, Hf, pow2_plus. rewrite <- (Z.abs_sgn m) at 1. rewrite Em.
    rewrite !inject_Z_mult. change (inject_Z (2 ^ 53)) with (inject_Z (2 ^ 52) * 2). change (pow2 1) with 2. ring.
  - assert (exponent (this (fl x)) = e)%Z as Ee.
    { transitivity ((52 + e) - 52)%Z; [|lia]. apply exponent_unique; rewrite Ha.
      - rewrite pow2_plus. apply Qmult_le_compat_r; [|lra]. change (pow2 52) with (inject_Z (2 ^ 52)). by rewrite <- Zle_Qle.
      - replace (52 + e + 1)%Z with (53 + e)%Z by lia. rewrite pow2_plus. apply Qmult_lt_r; [done|].
        change (pow2 53) with (inject_Z (2 ^ 53)). rewrite <- Zlt_Qlt. lia. }
    apply (fl_exact _ m). by rewrite Ee, Hf.
Qed.
