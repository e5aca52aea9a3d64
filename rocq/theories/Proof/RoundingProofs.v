From Verif.Model Require Import Rounding.
From Coq Require Import Lqa Qfield.
Local Open Scope Q_scope.

Lemma floor_bounds v m : 0 < m →
  let low := inject_Z (Qfloor (v / m)) * m in low <= v /\ v < low + m.
Proof.
  intros Hm. cbv zeta. set (k := Qfloor (v / m)).
  pose proof (Qfloor_le (v / m)) as H1. pose proof (Qlt_floor (v / m)) as H2. fold k in H1, H2.
  assert (v == (v / m) * m) as Hv by (field; lra).
  split.
  - rewrite Hv at 1. apply Qmult_le_compat_r; [done|lra].
  - rewrite Hv at 1. rewrite inject_Z_plus in H2. change (inject_Z 1) with 1 in H2.
    setoid_replace (inject_Z k * m + m) with ((inject_Z k + 1) * m) by ring.
    by apply Qmult_lt_compat_r.
Qed.

Lemma zero_round v m up : v == 0 -> dt_round v m up = v.
Proof. intros H. unfold dt_round. apply Qeq_bool_iff in H. by rewrite H. Qed.

Lemma nonzero_round v m up : ~ v == 0 ->
  dt_round v m up =
  let low := inject_Z (Qfloor (v / m)) * m in
  match up with
  | Some true => low + m
  | Some false => low
  | None => if negb (Qle_bool (Qabs (v - low)) (Qabs (low + m - v))) then low + m else low
  end.
Proof.
  intros H. unfold dt_round. destruct (Qeq_bool v 0) eqn:E; [|done].
  apply Qeq_bool_iff in E. done.
Qed.

(** every result is a multiple *)
Lemma round_multiple v m up : ∃ k : Z, dt_round v m up == inject_Z k * m.
Proof.
  destruct (Qeq_dec v 0) as [H|H].
  { exists 0%Z. rewrite zero_round by done. rewrite H. change (inject_Z 0) with 0. ring. }
  rewrite nonzero_round by done. cbv zeta.
  assert (inject_Z (Qfloor (v / m)) * m + m == inject_Z (Qfloor (v / m) + 1) * m) as Hp.
  { rewrite inject_Z_plus. change (inject_Z 1) with 1. ring. }
  destruct up as [[|]|]; [eexists; exact Hp|by eexists|].
  destruct (negb _); [eexists; exact Hp|by eexists].
Qed.

Lemma round_down v m : 0 < m -> dt_round v m (Some false) <= v /\ v < dt_round v m (Some false) + m.
Proof.
  intros Hm. destruct (Qeq_dec v 0) as [H|H].
  { rewrite zero_round by done. lra. }
  rewrite nonzero_round by done. cbv zeta. by apply floor_bounds.
Qed.

Lemma round_up_actual v m : 0 < m -> ~ v == 0 ->
  v < dt_round v m (Some true) /\ dt_round v m (Some true) <= v + m.
Proof.
  intros Hm H. rewrite nonzero_round by done. cbv zeta.
  destruct (floor_bounds v m Hm). lra.
Qed.

Lemma round_up v m : 0 < m -> (v == 0 \/ ∀ k : Z, ~ v == inject_Z k * m) ->
  v <= dt_round v m (Some true) /\ dt_round v m (Some true) < v + m.
Proof.
  intros Hm [H|H].
  { rewrite zero_round by done. lra. }
  assert (~ v == 0) as Hn.
  { intros Hv. apply (H 0%Z). rewrite Hv. change (inject_Z 0) with 0. ring. }
  rewrite nonzero_round by done. cbv zeta.
  destruct (floor_bounds v m Hm) as [H1 H2].
  pose proof (H (Qfloor (v / m))) as H3. split; [lra|].
  destruct (Qlt_le_dec (inject_Z (Qfloor (v / m)) * m) v) as [?|?]; [lra|].
  exfalso. apply H3. lra.
Qed.

Lemma multiple_gap m (i j : Z) : 0 < m -> (i < j)%Z -> inject_Z i * m + m <= inject_Z j * m.
Proof.
  intros Hm Hij. setoid_replace (inject_Z i * m + m) with (inject_Z (i + 1) * m).
  - apply Qmult_le_compat_r; [|lra]. rewrite <- Zle_Qle. lia.
  - rewrite inject_Z_plus. change (inject_Z 1) with 1. ring.
Qed.

Lemma round_nearest v m : 0 < m -> ∀ k : Z, Qabs (dt_round v m None - v) <= Qabs (inject_Z k * m - v).
Proof.
  intros Hm k. destruct (Qeq_dec v 0) as [H|H].
  { rewrite zero_round by done. setoid_replace (v - v) with 0 by ring. apply Qabs_nonneg. }
  rewrite nonzero_round by done. cbv zeta.
  destruct (floor_bounds v m Hm) as [H1 H2].
  set (i := Qfloor (v / m)) in *. set (low := inject_Z i * m) in *.
  assert (inject_Z k * m <= low \/ low + m <= inject_Z k * m) as Hk.
  { destruct (Z.lt_ge_cases i k).
    - right. by apply multiple_gap.
    - left. apply Qmult_le_compat_r; [|lra]. rewrite <- Zle_Qle. lia. }
  assert (Qabs (v - low) == v - low) as Ha by (apply Qabs_pos; lra).
  assert (Qabs (low + m - v) == low + m - v) as Hb by (apply Qabs_pos; lra).
  assert (Qabs (low - v) == v - low) as Hc by (rewrite Qabs_neg by lra; ring).
  destruct (Qle_bool (Qabs (v - low)) (Qabs (low + m - v))) eqn:E; cbn [negb].
  - apply Qle_bool_iff in E. rewrite Ha, Hb in E. rewrite Hc.
    destruct Hk as [Hk|Hk].
    + rewrite (Qabs_neg (inject_Z k * m - v)) by lra. lra.
    + rewrite (Qabs_pos (inject_Z k * m - v)) by lra. lra.
  - assert (~ Qabs (v - low) <= Qabs (low + m - v)) as E'.
    { intros Hle%Qle_bool_iff. congruence. }
    rewrite Ha, Hb in E'. apply Qnot_le_lt in E'. rewrite Hb.
    destruct Hk as [Hk|Hk].
    + rewrite (Qabs_neg (inject_Z k * m - v)) by lra. lra.
    + rewrite (Qabs_pos (inject_Z k * m - v)) by lra. lra.
Qed.

Lemma round_up_wrong : dt_round 4 2 (Some true) == 6.
Proof. by vm_compute. Qed.

Lemma round_up_refute :
  ∃ v m, 0 < m ∧ ~ (∀ k : Z, v <= inject_Z k * m → dt_round v m (Some true) <= inject_Z k * m).
Proof.
  exists 4, 2. split; [done|]. intros H. specialize (H 2%Z).
  assert (4 <= inject_Z 2 * 2) as H4 by (by vm_compute). specialize (H H4).
  by vm_compute in H.
Qed.
