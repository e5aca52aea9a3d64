(** Facts about Python ranges and slices. *)
From Verif.Spec Require Import PyList.
From Coq Require Import ZifyBool.
Local Open Scope Z_scope.

Ltac zdm := Z.div_mod_to_equations.

(** ** znth *)
Lemma znth_app {A} (l1 l2 : list A) i :
  znth (l1 ++ l2) i = if i <? zlen l1 then znth l1 i else znth l2 (i - zlen l1).
Proof.
  unfold znth. destruct (Z.ltb_spec i 0).
  { destruct (Z.ltb_spec i (zlen l1)); [done|lia]. }
  destruct (Z.ltb_spec i (zlen l1)).
  - rewrite lookup_app_l; [done|lia].
  - destruct (Z.ltb_spec (i - zlen l1) 0); [lia|].
    rewrite lookup_app_r by lia. f_equal. lia.
Qed.

Lemma znth_cons {A} (x : A) l i :
  znth (x :: l) i = if i =? 0 then Some x else znth l (i - 1).
Proof.
  unfold znth. destruct (Z.eqb_spec i 0) as [->|]; [done|].
  destruct (Z.ltb_spec i 0), (Z.ltb_spec (i - 1) 0); try done; try lia.
  replace (Z.to_nat i) with (S (Z.to_nat (i - 1))) by lia. done.
Qed.

Lemma znth_Some {A} (l : list A) i : 0 <= i < zlen l → is_Some (znth l i).
Proof.
  intros Hi. unfold znth. destruct (Z.ltb_spec i 0); [lia|].
  apply lookup_lt_is_Some. lia.
Qed.

Lemma znth_None {A} (l : list A) i : ¬ (0 <= i < zlen l) → znth l i = None.
Proof.
  intros Hi. unfold znth. destruct (Z.ltb_spec i 0); [done|].
  apply lookup_ge_None. lia.
Qed.

Lemma znth_lookup {A} (l : list A) i : 0 <= i → znth l i = l !! Z.to_nat i.
Proof. intros. unfold znth. destruct (Z.ltb_spec i 0); [lia|done]. Qed.

(** ** ranges *)
Lemma py_range_nil a b s : 0 < s → b <= a → py_range a b s = [].
Proof.
  intros Hs Hab. unfold py_range, range_count.
  destruct (Z.ltb_spec 0 s); [|lia].
  rewrite seqZ_nil; [done|]. zdm; nia.
Qed.

Lemma py_range_cons a b s : 0 < s → a < b → py_range a b s = a :: py_range (a + s) b s.
Proof.
  intros Hs Hab. unfold py_range, range_count.
  destruct (Z.ltb_spec 0 s); [|lia].
  replace ((b - a + s - 1) / s) with (Z.succ ((b - (a + s) + s - 1) / s)).
  2:{ replace (b - a + s - 1) with (b - (a + s) + s - 1 + 1 * s) by lia.
      rewrite Z.div_add by lia. lia. }
  rewrite seqZ_cons.
  2:{ apply Z.lt_succ_r. apply Z.div_pos; lia. }
  simpl. f_equal; [lia|].
  rewrite Z.pred_succ.
  change (Z.succ 0) with (1 + 0).
  rewrite <- (fmap_add_seqZ 1 0).
  change (map ?f (?g <$> ?l)) with (f <$> (g <$> l)).
  rewrite <- list_fmap_compose. apply list_fmap_ext. intros ? k _. simpl. lia.
Qed.

Lemma range_ind (P : Z → Z → Prop) s :
  0 < s →
  (∀ a b, b <= a → P a b) →
  (∀ a b, a < b → P (a + s) b → P a b) →
  ∀ a b, P a b.
Proof.
  intros Hs Hnil Hcons a b.
  remember (Z.to_nat (b - a)) as n eqn:Hn. revert a Hn.
  induction (lt_wf n) as [n _ IH]. intros a Hn.
  destruct (Z.le_gt_cases b a); [auto|].
  apply Hcons; [done|]. eapply IH; [|reflexivity]. lia.
Qed.

Definition in_range (a b s i : Z) : bool := (a <=? i) && (i <? b) && ((i - a) mod s =? 0).

Lemma elem_of_py_range a b s i :
  0 < s → i ∈ py_range a b s ↔ in_range a b s i = true.
Proof.
  intros Hs. revert a b. apply (range_ind (λ a b, i ∈ py_range a b s ↔ in_range a b s i = true) s Hs).
  - intros a b Hab. rewrite py_range_nil by done. unfold in_range.
    split; [intros H; inversion H|lia].
  - intros a b Hab IH. rewrite py_range_cons by done. rewrite elem_of_cons, IH. unfold in_range.
    assert (Hm : (i - (a + s)) mod s = (i - a) mod s).
    { replace (i - (a + s)) with (i - a + (-1) * s) by lia. apply Z.mod_add. lia. }
    rewrite Hm. destruct (decide (i = a)) as [->|Hne].
    + rewrite Z.sub_diag, Z.mod_0_l by lia. split; [lia|auto].
    + split; [intros [?|?]; lia|]. intros H. right.
      assert (a <= i < b ∧ (i - a) mod s = 0) as [H1 H2] by lia.
      assert (a + s <= i).
      { apply Z.mod_divide in H2 as [k Hk]; [|lia]. assert (0 < k) by nia. nia. }
      lia.
Qed.

Lemma py_range_rev_step a b s :
  s < 0 → py_range a b s = map Z.opp (py_range (-a) (-b) (-s)).
Proof.
  intros Hs. unfold py_range. rewrite map_map.
  unfold range_count. destruct (Z.ltb_spec 0 s); [lia|]. destruct (Z.ltb_spec 0 (-s)); [|lia].
  replace (- b - - a + - s - 1) with (a - b - s - 1) by lia.
  apply map_ext. intros k. lia.
Qed.

Lemma elem_of_py_range_neg a b s i :
  s < 0 → i ∈ py_range a b s ↔ (b < i <= a ∧ (a - i) mod (- s) = 0).
Proof.
  intros Hs. rewrite py_range_rev_step by done. rewrite elem_of_list_In, in_map_iff.
  split.
  - intros (j & <- & Hj%elem_of_list_In). rewrite elem_of_py_range in Hj by lia.
    unfold in_range in Hj. replace (a - - j) with (j - - a) by lia. lia.
  - intros [H1 H2]. exists (-i). split; [lia|]. apply elem_of_list_In, elem_of_py_range; [lia|].
    unfold in_range. replace (- i - - a) with (a - i) by lia. lia.
Qed.

Lemma rlen_count a b s :
  0 < s → Z.max 0 (range_count a b s) = zlen (py_range a b s).
Proof. intros. unfold py_range. rewrite map_length, seqZ_length. lia. Qed.

(** ** filter_pos *)
Lemma filter_pos_app {A} P off (l1 l2 : list A) :
  filter_pos P off (l1 ++ l2) = filter_pos P off l1 ++ filter_pos P (off + zlen l1) l2.
Proof.
  revert off. induction l1 as [|x l1 IH]; intros off; simpl.
  - f_equal; lia.
  - rewrite IH. replace (off + 1 + zlen l1) with (off + Z.of_nat (S (length l1))) by lia.
    destruct (P off); done.
Qed.

Lemma filter_pos_ext {A} P Q off (l : list A) :
  (∀ i, off <= i < off + zlen l → P i = Q i) → filter_pos P off l = filter_pos Q off l.
Proof.
  revert off. induction l as [|x l IH]; intros off H; simpl; [done|].
  rewrite (H off) by (simpl; lia). rewrite (IH (off + 1)); [done|].
  intros i Hi. apply H. simpl. lia.
Qed.

Lemma filter_pos_true {A} P off (l : list A) :
  (∀ i, off <= i < off + zlen l → P i = true) → filter_pos P off l = l.
Proof.
  revert off. induction l as [|x l IH]; intros off H; simpl; [done|].
  rewrite (H off) by (simpl; lia). f_equal. apply IH. intros i Hi. apply H. simpl; lia.
Qed.

Lemma filter_pos_false {A} P off (l : list A) :
  (∀ i, off <= i < off + zlen l → P i = false) → filter_pos P off l = [].
Proof.
  revert off. induction l as [|x l IH]; intros off H; simpl; [done|].
  rewrite (H off) by (simpl; lia). apply IH. intros i Hi. apply H. simpl; lia.
Qed.

Lemma filter_pos_shift {A} P off d (l : list A) :
  filter_pos P (off + d) l = filter_pos (λ i, P (i + d)) off l.
Proof.
  revert off. induction l as [|x l IH]; intros off; simpl; [done|].
  replace (off + d + 1) with (off + 1 + d) by lia. rewrite IH. done.
Qed.

Lemma filter_pos_length_le {A} P off (l : list A) : (length (filter_pos P off l) <= length l)%nat.
Proof. revert off. induction l as [|x l IH]; intros off; simpl; [lia|]. destruct (P off); simpl; specialize (IH (off+1)); lia. Qed.

Lemma filter_pos_full {A} P off (l : list A) :
  length (filter_pos P off l) = length l → filter_pos P off l = l.
Proof.
  revert off. induction l as [|x l IH]; intros off; simpl; [done|].
  destruct (P off); simpl; intros H.
  - f_equal. apply IH. lia.
  - pose proof (filter_pos_length_le P (off + 1) l). lia.
Qed.

Lemma filter_pos_take {A} k off (l : list A) :
  filter_pos (λ i, i <? k) off l = take (Z.to_nat (k - off)) l.
Proof.
  revert off. induction l as [|x l IH]; intros off; simpl; [by rewrite take_nil|].
  rewrite IH. destruct (Z.ltb_spec off k).
  - replace (Z.to_nat (k - off)) with (S (Z.to_nat (k - (off + 1)))) by lia. done.
  - replace (Z.to_nat (k - off)) with 0%nat by lia.
    replace (Z.to_nat (k - (off + 1))) with 0%nat by lia. rewrite take_0. done.
Qed.

Lemma filter_pos_drop {A} k off (l : list A) :
  filter_pos (λ i, k <=? i) off l = drop (Z.to_nat (k - off)) l.
Proof.
  revert off. induction l as [|x l IH]; intros off; simpl; [by rewrite drop_nil|].
  rewrite IH. destruct (Z.leb_spec k off).
  - replace (Z.to_nat (k - off)) with 0%nat by lia.
    replace (Z.to_nat (k - (off + 1))) with 0%nat by lia. rewrite drop_0. done.
  - replace (Z.to_nat (k - off)) with (S (Z.to_nat (k - (off + 1)))) by lia. done.
Qed.

Lemma omap_cons {A B} (f : A → option B) x l :
  omap f (x :: l) = match f x with Some y => y :: omap f l | None => omap f l end.
Proof. done. Qed.

(** Gathering over an ascending range is position filtering. *)
Lemma omap_range_filter {A} (l : list A) a b s off :
  0 < s → off <= a →
  omap (λ i, znth l (i - off)) (py_range a b s) = filter_pos (in_range a b s) off l.
Proof.
  intros Hs. revert a off. induction l as [|x l IH]; intros a off Ha.
  - cbn [filter_pos]. induction (py_range a b s) as [|i r IHr]; [done|].
    rewrite omap_cons, IHr. unfold znth. destruct (_ <? 0); done.
  - destruct (Z.le_gt_cases b a) as [Hab|Hab].
    { rewrite py_range_nil by done. simpl. symmetry.
      change (filter_pos (in_range a b s) off (x :: l) = []).
      apply filter_pos_false. intros i _. unfold in_range. lia. }
    assert (Hshift : ∀ a', off + 1 <= a' →
      omap (λ i, znth (x :: l) (i - off)) (py_range a' b s) =
      omap (λ i, znth l (i - (off + 1))) (py_range a' b s)).
    { intros a' Ha'. apply list_omap_ext. apply Forall_Forall2_diag, list.Forall_forall. intros i Hi.
      rewrite elem_of_py_range in Hi by done. unfold in_range in Hi.
      rewrite znth_cons. destruct (Z.eqb_spec (i - off) 0); [lia|]. f_equal. lia. }
    destruct (decide (a = off)) as [->|Hne].
    + rewrite py_range_cons by done. rewrite omap_cons, Z.sub_diag. cbn [filter_pos].
      change (znth (x :: l) 0) with (Some x). cbn match.
      unfold in_range at 1. rewrite Z.sub_diag, Z.mod_0_l by lia.
      replace ((off <=? off) && (off <? b) && (0 =? 0)) with true by lia.
      f_equal.
      rewrite Hshift by lia. rewrite IH by lia.
      apply filter_pos_ext. intros i Hi. unfold in_range.
      assert (Hm : (i - (off + s)) mod s = (i - off) mod s).
      { replace (i - (off + s)) with (i - off + (-1) * s) by lia. apply Z.mod_add. lia. }
      rewrite Hm.
      destruct (Z.eqb_spec ((i - off) mod s) 0) as [H0|]; [|lia].
      assert (off + s <= i).
      { apply Z.mod_divide in H0 as [k Hk]; [|lia]. assert (0 < k) by nia. nia. }
      lia.
    + rewrite Hshift by lia. rewrite IH by lia. cbn [filter_pos].
      unfold in_range at 2. replace ((a <=? off) && (off <? b)) with false by lia. done.
Qed.

Lemma omap_range_filter0 {A} (l : list A) a b s :
  0 < s → 0 <= a →
  omap (znth l) (py_range a b s) = filter_pos (in_range a b s) 0 l.
Proof.
  intros Hs Ha. rewrite <- (omap_range_filter l a b s 0) by done.
  apply list_omap_ext. apply Forall_Forall2_diag, list.Forall_forall. intros i _. f_equal; lia.
Qed.

(** ** slice.indices *)
Lemma slice_indices_pos s len a b st :
  0 <= len → 0 < sl_stepv s → slice_indices s len = (a, b, st) →
  0 <= a <= len ∧ 0 <= b <= len ∧ st = sl_stepv s.
Proof.
  intros Hlen Hs. unfold slice_indices. destruct (Z.ltb_spec (sl_stepv s) 0); [lia|].
  intros [= <- <- <-].
  destruct (sl_start s) as [x|], (sl_stop s) as [y|]; repeat case_match; lia.
Qed.

Lemma slice_indices_neg s len a b st :
  0 <= len → sl_stepv s < 0 → slice_indices s len = (a, b, st) →
  -1 <= a <= len - 1 ∧ -1 <= b <= len - 1 ∧ st = sl_stepv s.
Proof.
  intros Hlen Hs. unfold slice_indices. destruct (Z.ltb_spec (sl_stepv s) 0); [|lia].
  intros [= <- <- <-].
  destruct (sl_start s) as [x|], (sl_stop s) as [y|]; repeat case_match; lia.
Qed.

Lemma py_getslice_filter {A} (l : list A) s a b st :
  0 < sl_stepv s → slice_indices s (zlen l) = (a, b, st) →
  py_getslice l s = filter_pos (in_range a b st) 0 l.
Proof.
  intros Hs E. unfold py_getslice, slice_positions. rewrite E.
  apply slice_indices_pos in E as (? & ? & ->); [|lia|done].
  apply omap_range_filter0; lia.
Qed.

(** [l[a:b]] for non-negative positions *)
Lemma filter_pos_between {A} a b off (l : list A) :
  filter_pos (λ i, (a <=? i) && (i <? b)) off l
  = drop (Z.to_nat (a - off)) (take (Z.to_nat (b - off)) l).
Proof.
  revert off. induction l as [|x l IH]; intros off; [by rewrite take_nil, drop_nil|].
  destruct (Z.le_gt_cases b off) as [Hb|Hb].
  { replace (Z.to_nat (b - off)) with 0%nat by lia. rewrite take_0, drop_nil.
    apply filter_pos_false. intros i Hi. lia. }
  destruct (Z.le_gt_cases a off) as [Ha|Ha].
  { replace (Z.to_nat (a - off)) with 0%nat by lia. rewrite drop_0, <- filter_pos_take.
    apply filter_pos_ext. intros i Hi. lia. }
  simpl. replace ((a <=? off) && (off <? b)) with false by lia. rewrite IH.
  replace (Z.to_nat (b - off)) with (S (Z.to_nat (b - (off + 1)))) by lia.
  replace (Z.to_nat (a - off)) with (S (Z.to_nat (a - (off + 1)))) by lia. done.
Qed.

Lemma in_range_1 a b i : in_range a b 1 i = (a <=? i) && (i <? b).
Proof. unfold in_range. rewrite Z.mod_1_r. lia. Qed.

Lemma py_getslice_simple {A} (l : list A) s a b st :
  sl_stepv s = 1 → slice_indices s (zlen l) = (a, b, st) →
  py_getslice l s = drop (Z.to_nat a) (take (Z.to_nat b) l).
Proof.
  intros Hs E. rewrite (py_getslice_filter _ _ a b st) by (done || lia).
  apply slice_indices_pos in E as (? & ? & ->); [|lia|lia]. rewrite Hs.
  erewrite filter_pos_ext by (intros; apply in_range_1).
  rewrite filter_pos_between, !Z.sub_0_r. done.
Qed.

Lemma take_min_length {A} (l : list A) n : take (n `min` length l) l = take n l.
Proof.
  destruct (Nat.le_ge_cases n (length l)).
  - by rewrite Nat.min_l.
  - rewrite Nat.min_r by done. rewrite !take_ge; done || lia.
Qed.
Lemma drop_min_length {A} (l : list A) n : drop (n `min` length l) l = drop n l.
Proof.
  destruct (Nat.le_ge_cases n (length l)).
  - by rewrite Nat.min_l.
  - rewrite Nat.min_r by done. rewrite !drop_ge; done || lia.
Qed.

Lemma getslice_between {A} (l : list A) a b :
  0 <= a → 0 <= b →
  py_getslice l (Slice (Some a) (Some b) None) = drop (Z.to_nat a) (take (Z.to_nat b) l).
Proof.
  intros Ha Hb. erewrite py_getslice_simple; [|done|reflexivity]. simpl.
  destruct (Z.ltb_spec a 0); [lia|]. destruct (Z.ltb_spec b 0); [lia|].
  rewrite !Z2Nat.inj_min, Nat2Z.id, take_min_length.
  destruct (Nat.le_ge_cases (Z.to_nat a) (length l)).
  - by rewrite Nat.min_l.
  - rewrite Nat.min_r by done. rewrite !drop_ge; [done|..]; rewrite take_length; lia.
Qed.

Lemma getslice_upto {A} (l : list A) b :
  0 <= b → py_getslice l (Slice None (Some b) None) = take (Z.to_nat b) l.
Proof.
  intros Hb. erewrite py_getslice_simple; [|done|reflexivity]. simpl.
  destruct (Z.ltb_spec b 0); [lia|].
  rewrite !Z2Nat.inj_min, Nat2Z.id, take_min_length. done.
Qed.

Lemma getslice_from {A} (l : list A) a :
  0 <= a → py_getslice l (Slice (Some a) None None) = drop (Z.to_nat a) l.
Proof.
  intros Ha. erewrite py_getslice_simple; [|done|reflexivity]. simpl.
  destruct (Z.ltb_spec a 0); [lia|].
  rewrite !Z2Nat.inj_min, Nat2Z.id, firstn_all, drop_min_length. done.
Qed.

Lemma getslice_all {A} (l : list A) : py_getslice l (Slice None None None) = l.
Proof.
  erewrite py_getslice_simple; [|done|reflexivity]. simpl.
  rewrite Nat2Z.id, drop_0, firstn_all. done.
Qed.

(** A reversed unit-step range is the reversed range. *)
Lemma py_range_snoc a b : a < b → py_range a b 1 = py_range a (b - 1) 1 ++ [b - 1].
Proof.
  intros Hab. unfold py_range, range_count. simpl.
  rewrite !Z.div_1_r. replace (b - a + 1 - 1) with (Z.of_nat (S (Z.to_nat (b - 1 - a)))) by lia.
  replace (b - 1 - a + 1 - 1) with (Z.of_nat (Z.to_nat (b - 1 - a))) by lia.
  rewrite seqZ_S. rewrite map_app. cbn [map]. do 2 f_equal. lia.
Qed.

Lemma py_range_neg1 a b : py_range a b (-1) = rev (py_range (b + 1) (a + 1) 1).
Proof.
  rewrite py_range_rev_step by lia. change (- (-1)) with 1.
  remember (Z.to_nat (a - b)) as n eqn:Hn. revert a Hn.
  induction n as [|n IH]; intros a Hn.
  - rewrite !py_range_nil by lia. done.
  - rewrite (py_range_snoc (b + 1) (a + 1)) by lia. rewrite (py_range_cons (- a) (- b)) by lia.
    rewrite rev_app_distr. cbn [map rev app]. f_equal; [lia|].
    replace (- a + 1) with (- (a - 1)) by lia. rewrite IH by lia.
    do 2 f_equal. lia.
Qed.

Lemma omap_rev {A B} (f : A → option B) l : omap f (rev l) = rev (omap f l).
Proof.
  induction l as [|x l IH]; [done|].
  cbn [rev]. rewrite omap_app, IH, !omap_cons. destruct (f x); cbn; [done|]. by rewrite app_nil_r.
Qed.
