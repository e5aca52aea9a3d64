(** Proofs about the small functions: pickled integers, rounding, page steps,
    date ranges, sheet rows. *)
From Verif.Model Require Import Pickle PageSteps DateRange Sheets.
From Verif.Proof Require Import SliceLemmas.
From Coq Require Import ZifyBool.
Local Open Scope Z_scope.

(** ** Pickle *)
Lemma le_roundtrip k v : 0 <= v < 256 ^ Z.of_nat k → le_value (le_bytes k v) = v.
Proof.
  revert v. induction k as [|k IH]; intros v Hv; cbn [le_bytes le_value].
  - change (256 ^ Z.of_nat 0) with 1 in Hv. lia.
  - rewrite IH.
    + Z.div_mod_to_equations; lia.
    + rewrite Nat2Z.inj_succ, Z.pow_succ_r in Hv by lia. Z.div_mod_to_equations; lia.
Qed.

Lemma le_length k v : length (le_bytes k v) = k.
Proof. revert v. induction k; intros; simpl; auto. Qed.

Lemma binint_read v rest :
  readPickleInt ((PKL_BININT :: le_bytes 4 (v mod 2 ^ 32)) ++ rest)
  = Some (as_int32 (v mod 2 ^ 32), rest).
Proof.
  cbn [app readPickleInt]. rewrite Z.eqb_refl.
  assert ((length (le_bytes 4 (v mod 2 ^ 32) ++ rest) <? 4)%nat = false) as ->.
  { apply Nat.ltb_ge. rewrite app_length, le_length. lia. }
  rewrite take_app_alt, drop_app_alt by (by rewrite le_length).
  rewrite le_roundtrip; [done|]. change (256 ^ Z.of_nat 4) with (2 ^ 32).
  apply Z.mod_pos_bound. lia.
Qed.

Lemma write_read_actual v rest :
  readPickleInt (writePickleBinint v ++ rest)
  = Some (if bool_decide (0 <= v < 2 ^ 16) then v else as_int32 (v mod 2 ^ 32), rest).
Proof.
  unfold writePickleBinint.
  destruct (v <? 0) eqn:E0.
  { rewrite binint_read, bool_decide_eq_false_2 by lia. done. }
  destruct (v <=? 0xff) eqn:E1.
  { rewrite bool_decide_eq_true_2 by lia. cbn [app readPickleInt].
    assert ((PKL_BININT1 =? PKL_BININT) = false) as -> by reflexivity. rewrite Z.eqb_refl.
    assert ((length (le_bytes 1 v ++ rest) <? 1)%nat = false) as ->.
    { apply Nat.ltb_ge. rewrite app_length, le_length. lia. }
    rewrite take_app_alt, drop_app_alt by (by rewrite le_length).
    rewrite le_roundtrip; [done|]. change (256 ^ Z.of_nat 1) with 256. lia. }
  destruct (v <=? 0xffff) eqn:E2.
  { rewrite bool_decide_eq_true_2 by lia. cbn [app readPickleInt].
    assert ((PKL_BININT2 =? PKL_BININT) = false) as -> by reflexivity.
    assert ((PKL_BININT2 =? PKL_BININT1) = false) as -> by reflexivity. rewrite Z.eqb_refl.
    assert ((length (le_bytes 2 v ++ rest) <? 2)%nat = false) as ->.
    { apply Nat.ltb_ge. rewrite app_length, le_length. lia. }
    rewrite take_app_alt, drop_app_alt by (by rewrite le_length).
    rewrite le_roundtrip; [done|]. change (256 ^ Z.of_nat 2) with 65536. lia. }
  rewrite binint_read, bool_decide_eq_false_2 by lia. done.
Qed.

Lemma write_read v rest :
  - 2 ^ 31 <= v < 2 ^ 31 → readPickleInt (writePickleBinint v ++ rest) = Some (v, rest).
Proof.
  intros Hv. rewrite write_read_actual. case_bool_decide; [done|].
  unfold as_int32. do 2 f_equal.
  destruct (v mod 2 ^ 32 <? 2 ^ 31) eqn:E; Z.div_mod_to_equations; lia.
Qed.

Lemma write_read_wrong : readPickleInt (writePickleBinint (2 ^ 31)) = Some (- 2 ^ 31, []).
Proof. by vm_compute. Qed.

(** ** Page steps *)
Definition rows_of (p : Z * Z) : list Z := seqZ p.1 (p.2 - p.1).

Lemma seqZ_split a n m : 0 <= n → 0 <= m → seqZ a n ++ seqZ (a + n) m = seqZ a (n + m).
Proof. intros. rewrite seqZ_app by lia. done. Qed.

Lemma step_loop_spec rounds ps len e :
  0 < ps → 0 <= e <= len → len - e < ps * Z.of_nat rounds →
  concat (map rows_of (step_loop rounds ps len e)) = seqZ e (len - e) ∧
  Forall (λ p, 0 <= p.2 - p.1 <= ps) (step_loop rounds ps len e) ∧
  (e < len → Forall (λ p, p.1 < p.2) (step_loop rounds ps len e)).
Proof.
  intros Hps. revert e. induction rounds as [|rounds IH]; intros e He Hr; [lia|].
  cbn [step_loop]. destruct (Z.min (e + ps) len =? len) eqn:E.
  - cbn [map concat]. rewrite app_nil_r. unfold rows_of at 1. cbn [fst snd]. split_and!.
    + f_equal. lia.
    + apply list.Forall_cons; cbn [fst snd]. split; [lia|constructor].
    + intros. apply list.Forall_cons; cbn [fst snd]. split; [lia|constructor].
  - destruct (IH (Z.min (e + ps) len)) as (H1 & H2 & H3); [lia|lia|].
    cbn [map concat]. rewrite H1. unfold rows_of. cbn [fst snd]. split_and!.
    + replace (Z.min (e + ps) len) with (e + ps) by lia.
      replace (e + ps - e) with ps by lia. rewrite seqZ_split by lia. f_equal. lia.
    + apply list.Forall_cons; cbn [fst snd]. split; [lia|done].
    + intros. apply list.Forall_cons; cbn [fst snd]. split; [lia|]. apply H3. lia.
Qed.

Lemma py_range_length a b s : length (py_range a b s) = Z.to_nat (range_count a b s).
Proof. unfold py_range. by rewrite map_length, seqZ_length. Qed.

Lemma page_steps_spec ps len :
  0 < ps → 0 <= len →
  concat (map (λ p, seqZ p.1 (p.2 - p.1)) (page_steps ps len)) = seqZ 0 len ∧
  Forall (λ p, 0 <= p.2 - p.1 <= ps) (page_steps ps len) ∧
  (0 < len → Forall (λ p, p.1 < p.2) (page_steps ps len)).
Proof.
  intros Hps Hlen. unfold page_steps.
  pose proof (step_loop_spec (length (py_range 0 (len + 1) ps)) ps len 0 Hps) as H.
  rewrite Z.sub_0_r in H. apply H; [lia|].
  rewrite py_range_length. unfold range_count.
  assert ((0 <? ps) = true) as -> by lia.
  rewrite Z2Nat.id by (apply Z.div_pos; lia).
  Z.div_mod_to_equations. nia.
Qed.

Lemma page_steps_zero ps : 0 < ps → page_steps ps 0 = [(0, 0)].
Proof.
  intros. unfold page_steps. rewrite py_range_length. unfold range_count.
  assert ((0 <? ps) = true) as -> by lia.
  replace (0 + 1 - 0 + ps - 1) with ps by lia. rewrite Z.div_same by lia.
  change (Z.to_nat 1) with 1%nat. cbn [step_loop].
  replace (Z.min (0 + ps) 0) with 0 by lia. done.
Qed.

(** ** Date ranges *)
Lemma range1_elem n i : i ∈ py_range 0 n 1 ↔ 0 <= i < n.
Proof.
  unfold py_range. rewrite elem_of_list_fmap. unfold range_count. simpl.
  rewrite Z.div_1_r. split.
  - intros (k & -> & Hk%elem_of_seqZ). lia.
  - intros H. exists i. split; [lia|]. apply elem_of_seqZ. lia.
Qed.

Lemma date_range_actual start stop step :
  step ≠ 0 →
  date_range start stop step
  = Ok (map (λ k, start + step * k) (seqZ 0 ((stop - start) / step))).
Proof.
  intros H. unfold date_range. assert ((step =? 0) = false) as -> by lia. f_equal.
  unfold py_range. rewrite map_map. unfold range_count. simpl. rewrite Z.div_1_r.
  replace ((stop - start) / step - 0 + 1 - 1) with ((stop - start) / step) by lia.
  apply map_ext. intros. lia.
Qed.

Lemma date_range_member start stop step l x :
  step ≠ 0 → date_range start stop step = Ok l →
  x ∈ l ↔ ∃ k, 0 <= k ∧ x = start + k * step ∧
               (if 0 <? step then start + (k + 1) * step <= stop else stop <= start + (k + 1) * step).
Proof.
  intros Hs. rewrite date_range_actual by done. intros [= <-].
  rewrite elem_of_list_fmap. split.
  - intros (k & -> & Hk%elem_of_seqZ). exists k. split; [lia|]. split; [lia|].
    destruct (0 <? step) eqn:E; Z.div_mod_to_equations; nia.
  - intros (k & Hk & -> & Hb). exists k. split; [lia|]. apply elem_of_seqZ.
    destruct (0 <? step) eqn:E; Z.div_mod_to_equations; nia.
Qed.

Lemma date_range_divides start stop step l :
  step ≠ 0 → (stop - start) mod step = 0 → date_range start stop step = Ok l →
  ∀ x, x ∈ l ↔ ∃ k, 0 <= k ∧ x = start + k * step ∧ (if 0 <? step then x < stop else stop < x).
Proof.
  intros Hs Hm Hl x. rewrite (date_range_member _ _ _ _ x Hs Hl).
  apply Z.mod_divide in Hm as [q Hq]; [|done].
  split; intros (k & Hk & -> & Hb); exists k; (split; [done|]); (split; [done|]);
    destruct (0 <? step) eqn:E.
  - assert (k < q) by nia. nia.
  - assert (k < q) by nia. nia.
  - assert (k < q) by nia. nia.
  - assert (k < q) by nia. nia.
Qed.

Lemma date_range_sorted start stop step l :
  step ≠ 0 → date_range start stop step = Ok l →
  ∀ i x, l !! i = Some x → x = start + Z.of_nat i * step.
Proof.
  intros Hs. rewrite date_range_actual by done. intros [= <-] i x.
  rewrite list_lookup_fmap. intros (k & Hk & ->)%fmap_Some.
  apply lookup_seqZ in Hk as [-> ?]. lia.
Qed.

(** ** Sheets *)
Lemma omap_range_slice {A} (l : list A) a n :
  0 <= a → omap (λ i, znth l i) (seqZ a n) = take (Z.to_nat n) (drop (Z.to_nat a) l).
Proof.
  intros Ha. rewrite <- (Z2Nat.id a) at 1 by done.
  destruct (decide (0 <= n)) as [Hn|Hn].
  2:{ rewrite seqZ_nil by lia. by replace (Z.to_nat n) with 0%nat by lia. }
  rewrite <- (Z2Nat.id n) at 1 by done. generalize (Z.to_nat n) (Z.to_nat a). clear.
  intros n. induction n as [|n IH]; intros a; [done|].
  rewrite Nat2Z.inj_succ, seqZ_cons by lia. rewrite Z.pred_succ.
  replace (Z.succ (Z.of_nat a)) with (Z.of_nat (S a)) by lia.
  rewrite omap_cons.
  assert (znth l (Z.of_nat a) = l !! a) as ->.
  { unfold znth. assert ((Z.of_nat a <? 0) = false) as -> by lia. by rewrite Nat2Z.id. }
  pose proof (IH (S a)) as IH'.
  destruct (l !! a) as [x|] eqn:E.
  - rewrite (drop_S _ _ _ E). cbn [take]. f_equal. apply IH'.
  - apply lookup_ge_None in E. rewrite IH'. rewrite !drop_ge by lia. by rewrite take_nil.
Qed.

Lemma excel_rows_actual {A} (rows : list A) (hdr : bool) hri mr start limit :
  0 <= hri → 0 <= start → 0 < limit → mr = None ∨ mr = Some (zlen rows) →
  excel_rows rows hdr hri mr start limit
  = take (Z.to_nat (limit + 1))
      (drop (Z.to_nat start) (drop (Z.to_nat (hri + if hdr then 1 else 0)) rows)).
Proof.
  intros Hh Hs Hl Hmr. unfold excel_rows, iter_rows, py_range, range_count. cbv zeta.
  assert ((0 <? 1) = true) as -> by reflexivity. rewrite Z.div_1_r.
  set (o := start + (if hdr then 1 else 0) + hri + 1).
  assert (1 <= o) by (subst o; destruct hdr; lia).
  set (mx := Z.min (o + limit) _).
  replace (mx + 1 - o + 1 - 1) with (mx + 1 - o) by lia.
  rewrite drop_drop.
  replace (Z.to_nat (hri + (if hdr then 1 else 0)) + Z.to_nat start)%nat with (Z.to_nat (o - 1))
    by (subst o; destruct hdr; lia).
  transitivity (omap (λ i, znth rows i) (seqZ (o - 1) (mx + 1 - o))).
  { generalize (mx + 1 - o). intros n. clear. unfold seqZ.
    generalize (seq 0 (Z.to_nat n)). intros l. induction l as [|k l IH]; [done|].
    cbn [map fmap list_fmap]. rewrite !omap_cons. rewrite <- IH.
    replace (o + 1 * (Z.of_nat k + 0) - 1) with (Z.of_nat k + (o - 1)) by lia. done. }
  rewrite omap_range_slice by lia. destruct Hmr as [-> | ->].
  - subst mx. f_equal. lia.
  - subst mx. destruct (decide (o + limit <= zlen rows)).
    + f_equal. lia.
    + rewrite !take_ge; [done| |]; rewrite drop_length; lia.
Qed.

Lemma excel_rows_partial {A} (rows : list A) (hdr : bool) hri mr start limit :
  0 <= hri → 0 <= start → 0 < limit → mr = None ∨ mr = Some (zlen rows) →
  zlen rows <= (hri + if hdr then 1 else 0) + start + limit →
  excel_rows rows hdr hri mr start limit
  = take (Z.to_nat limit)
      (drop (Z.to_nat start) (drop (Z.to_nat (hri + if hdr then 1 else 0)) rows)).
Proof.
  intros Hh Hs Hl Hmr Hlen. rewrite excel_rows_actual by done.
  rewrite !take_ge; [done| |]; rewrite !drop_length; destruct hdr; lia.
Qed.

Lemma ods_rows_actual {A} (rows : list A) (hdr : bool) hri start limit :
  0 <= hri → 0 < limit →
  ods_rows rows hdr hri start limit
  = take (Z.to_nat limit) (drop (Z.to_nat (hri + if hdr then 1 else 0)) rows).
Proof.
  intros Hh Hl. unfold ods_rows. rewrite getslice_between by (destruct hdr; lia).
  replace (hri + (if hdr then 1 else 0)) with ((if hdr then 1 else 0) + hri) by lia.
  set (o := (if hdr then 1 else 0) + hri). assert (0 <= o) by (subst o; destruct hdr; lia).
  rewrite Z2Nat.inj_add by lia. by rewrite take_drop_commute.
Qed.

Lemma excel_rows_wrong :
  excel_rows [0; 1; 2; 3; 4] true 0 (Some 5) 1 2 = [2; 3; 4].
Proof. by vm_compute. Qed.
Lemma ods_rows_wrong :
  ods_rows [0; 1; 2; 3; 4] true 0 2 2 = [1; 2].
Proof. by vm_compute. Qed.

Lemma page_steps_empty_step :
  ∃ ps len, 0 < ps ∧ 0 <= len ∧ ¬ Forall (λ p, p.1 < p.2) (page_steps ps len).
Proof.
  exists 1, 0. split; [lia|]. split; [lia|]. rewrite page_steps_zero by lia.
  intros H. apply list.Forall_cons in H as [H _]. simpl in H. lia.
Qed.

Lemma date_range_short :
  ∃ start stop step l k, step ≠ 0 ∧ date_range start stop step = Ok l ∧
    0 < step ∧ 0 <= k ∧ start + k * step < stop ∧ start + k * step ∉ l.
Proof.
  exists 0, 5, 2, [0; 2], 2. split_and!; try lia; [by vm_compute|].
  rewrite !not_elem_of_cons. split_and!; try lia. apply not_elem_of_nil.
Qed.

Lemma sheet_rows_wrong :
  (∃ (rows : list Z) start limit, 0 <= start ∧ 0 < limit ∧
     excel_rows rows true 0 (Some (zlen rows)) start limit
     ≠ take (Z.to_nat limit) (drop (Z.to_nat start) (drop 1 rows))) ∧
  (∃ (rows : list Z) start limit, 0 <= start ∧ 0 < limit ∧
     ods_rows rows true 0 start limit
     ≠ take (Z.to_nat limit) (drop (Z.to_nat start) (drop 1 rows))).
Proof.
  split; [exists [0; 1; 2; 3; 4], 1, 2|exists [0; 1; 2; 3; 4], 2, 2];
    (split; [lia|]; split; [lia|]; by vm_compute).
Qed.

Lemma write_read_refute :
  ∃ v, - 2 ^ 63 <= v < 2 ^ 63 ∧ readPickleInt (writePickleBinint v) ≠ Some (v, []).
Proof. exists (2 ^ 31). split; [lia|]. by rewrite write_read_wrong. Qed.
