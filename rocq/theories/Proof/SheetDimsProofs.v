(** Proofs of C94. *)
From Verif.Proof Require Import PyGuessCases.
From Verif.Spec Require Import SheetRefs.
From Verif.Model Require Import SheetDims.
Local Open Scope list_scope.
Local Open Scope Z_scope.

(** letters from the right *)
Fixpoint rvalue (s : list Z) : Z := match s with [] => 0 | c :: s => (c - 64) + 26 * rvalue s end.
Definition letters (s : list Z) : Prop := Forall (λ c, 65 <= c <= 90) s.

Lemma count_loop s : ∀ k acc,
  fold_left (λ n (p : nat * Z), n + (p.2 - (65 - 1)) * (90 - (65 - 1)) ^ Z.of_nat p.1) (zip (seq k (length s)) s) acc
  = acc + 26 ^ Z.of_nat k * rvalue s.
Proof.
  induction s as [|c s IH]; intros k acc; [cbn; lia|]. cbn [length seq zip_with fold_left rvalue]. rewrite IH. cbn [fst snd].
  rewrite Nat2Z.inj_succ, Z.pow_succ_r by lia. change (90 - (65 - 1)) with 26. change (65 - 1) with 64.
  generalize (26 ^ Z.of_nat k) as q. intros q. lia.
Qed.

Lemma count_rvalue s : calc_col_count s = rvalue (rev s).
Proof. unfold calc_col_count. rewrite <- (rev_length s). rewrite count_loop. change (26 ^ Z.of_nat 0) with 1. lia. Qed.

Lemma next_value s : letters s → rvalue (next_letters s) = rvalue s + 1 ∧ letters (next_letters s).
Proof.
  induction 1 as [|c s Hc Hs [IH1 IH2]]; cbn [next_letters rvalue].
  - split; [done|]. constructor; [lia|constructor].
  - destruct (Z.eqb_spec c 90) as [->|Hn]; cbn [rvalue].
    + rewrite IH1. split; [lia|]. constructor; [lia|done].
    + split; [lia|]. constructor; [lia|done].
Qed.

Lemma name_value n : rvalue (Nat.iter n next_letters [65]) = Z.of_nat n + 1 ∧ letters (Nat.iter n next_letters [65]).
Proof.
  induction n as [|n [IH1 IH2]].
  - split; [done|]. constructor; [lia|constructor].
  - change (Nat.iter (S n) next_letters [65]) with (next_letters (Nat.iter n next_letters [65])).
    destruct (next_value _ IH2) as [H1 H2]. rewrite H1, IH1. split; [lia|done].
Qed.

Lemma count_name n : calc_col_count (column_name n) = Z.of_nat n + 1.
Proof. rewrite count_rvalue. unfold column_name. rewrite rev_involutive. apply name_value. Qed.

Lemma rvalue_pos c s : letters (c :: s) → 1 <= rvalue (c :: s).
Proof.
  revert c. induction s as [|d s IH]; intros c H; apply list.Forall_cons in H as [Hc H]; [cbn; lia|].
  specialize (IH d H). change (rvalue (c :: d :: s)) with ((c - 64) + 26 * rvalue (d :: s)). lia.
Qed.

Lemma rvalue_inj s : ∀ s', letters s → letters s' → rvalue s = rvalue s' → s = s'.
Proof.
  induction s as [|c s IH]; intros [|c' s'] Hs Hs' H.
  - done.
  - pose proof (rvalue_pos c' s' Hs'). cbn [rvalue] in *. lia.
  - pose proof (rvalue_pos c s Hs). cbn [rvalue] in *. lia.
  - apply list.Forall_cons in Hs as [Hc Hs]. apply list.Forall_cons in Hs' as [Hc' Hs']. cbn [rvalue] in H.
    assert (c = c') by lia. subst. f_equal. apply IH; [done|done|lia].
Qed.

(** every word of capital letters is the name of the column with its number *)
Lemma count_onto s : s ≠ [] → letters s → ∃ n, s = column_name n ∧ calc_col_count s = Z.of_nat n + 1.
Proof.
  intros Hne Hs. assert (letters (rev s)) as Hr by (by apply Forall_rev).
  assert (1 <= rvalue (rev s)) as Hp.
  { destruct (rev s) as [|c l] eqn:E; [|by apply rvalue_pos]. destruct Hne. rewrite <- (rev_involutive s), E. done. }
  exists (Z.to_nat (rvalue (rev s) - 1)). rewrite count_rvalue. split; [|lia].
  unfold column_name. rewrite <- (rev_involutive s) at 1. f_equal. destruct (name_value (Z.to_nat (rvalue (rev s) - 1))) as [H1 H2].
  apply rvalue_inj; [done|done|]. rewrite H1. lia.
Qed.

Lemma first_digit_letters s ds : letters s → Forall digit ds → ds ≠ [] → first_digit (s ++ ds) = Some (length s).
Proof.
  intros Hs Hd Hne. induction Hs as [|c s Hc _ IH]; cbn [app first_digit length].
  - destruct ds as [|d ds]; [done|]. apply list.Forall_cons in Hd as [Hd _]. unfold digit in Hd. cbn [first_digit].
    by rewrite (proj2 (Z.leb_le 48 d)), (proj2 (Z.leb_le d 57)) by lia.
  - rewrite (proj2 (Z.leb_gt c 57)) by lia. rewrite andb_false_r, IH. done.
Qed.

Lemma true_dims_loop (cells : list (nat * Z)) refs : Forall2 (λ p s, reference p.1 p.2 s) cells refs → ∀ mc mr,
  true_dims (map Some refs) mc mr
  = Ok (fold_left (λ m p, Z.max m (Z.of_nat p.1 + 1)) cells mc, fold_left (λ m (p : nat * Z), Z.max m p.2) cells mr).
Proof.
  induction 1 as [|[c r] s cells refs (ds & -> & Hds) _ IH]; intros mc mr; [done|].
  cbn [map true_dims fold_left fst snd]. destruct Hds as (H0 & Hd & Hv).
  assert (letters (column_name c)) as Hl by (apply Forall_rev; apply name_value).
  rewrite first_digit_letters by done. rewrite take_app, drop_app, count_name.
  rewrite (py_int_signed_number ds r) by (left; done). cbn [res_bind]. apply IH.
Qed.

Lemma max_fold {A} (f : A → Z) l m : ∃ m', fold_left (λ m p, Z.max m (f p)) l m = m' ∧ m <= m' ∧ (∀ p, p ∈ l → f p <= m') ∧
  (m' = m ∨ ∃ p, p ∈ l ∧ f p = m').
Proof.
  revert m. induction l as [|x l IH]; intros m; cbn [fold_left].
  - exists m. split; [done|]. split; [lia|]. split; [by intros p ?%elem_of_nil|by left].
  - destruct (IH (Z.max m (f x))) as (m' & -> & H1 & H2 & H3). exists m'. split; [done|]. split; [lia|]. split.
    + intros p [->|Hp]%elem_of_cons; [lia|auto].
    + destruct H3 as [H3|(p & Hp & H3)]; [|right; exists p; split; [by right|done]].
      destruct (Z.max_spec m (f x)) as [[_ E]|[_ E]]; rewrite E in H3; [right; exists x; split; [by left|lia]|by left].
Qed.

(** the least size that has all cells *)
Lemma dims_spec (cells : list (nat * Z)) refs : Forall2 (λ p s, reference p.1 p.2 s) cells refs → Forall (λ p, 1 <= p.2) cells →
  ∃ w h, calc_true_dims (map Some refs) = Ok (w, h) ∧ (∀ p, p ∈ cells → Z.of_nat p.1 < w ∧ p.2 <= h) ∧
    (cells = [] → w = 0 ∧ h = 0) ∧ (cells ≠ [] → (∃ p, p ∈ cells ∧ Z.of_nat p.1 + 1 = w) ∧ ∃ p, p ∈ cells ∧ p.2 = h).
Proof.
  intros H Hr. unfold calc_true_dims. rewrite (true_dims_loop cells refs H).
  destruct (max_fold (λ p : nat * Z, Z.of_nat p.1 + 1) cells 0) as (w & -> & W1 & W2 & W3).
  destruct (max_fold (λ p : nat * Z, p.2) cells 0) as (h & -> & H1 & H2 & H3). exists w, h. split; [done|]. split; [|split].
  - intros p Hp. specialize (W2 p Hp). specialize (H2 p Hp). cbn in *. lia.
  - intros ->. destruct W3 as [W3|(p & Hp%elem_of_nil & _)]; [|done]. destruct H3 as [H3|(p & Hp%elem_of_nil & _)]; done.
  - intros Hne. destruct cells as [|p cells]; [done|].
    assert (p ∈ p :: cells) as Hp by left. split.
    + destruct W3 as [->|W3]; [|done]. specialize (W2 p Hp). cbn in W2. lia.
    + destruct H3 as [->|H3]; [|done]. specialize (H2 p Hp). apply list.Forall_cons in Hr as [Hr _]. cbn in H2. lia.
Qed.
