(** Imputation of tables which a program has built; nearest neighbours of any table. *)
From Verif.Model Require Import Imputation Nearest.
From Verif.Proof Require Import ImputationProofs ImputeStats ImputeTables NearestFinal HeapProofs HeapFinal.
Local Open Scope Z_scope.

Theorem program_carry {N A T} `{EqDecision N, EqDecision T} (ty : A → T) (none : A) ps cast np_array eqb missing os i k targets :
  0 < ps → i ≠ k →
  let h := run ty ps cast np_array eqb (empty_heap (N := N)) os in
  (∀ n, n ∈ targets → ∃ a, dget (tabs h i) n = Some a ∧ fits none cast eqb missing (col_view h a)) →
  ∃ h', carry_forward ty none ps cast np_array eqb missing h i k targets = (h', Ok ()) ∧
    (∀ x, x ≠ k → tab_view h' x = tab_view h x) ∧
    (contents (tab_view h' k)).*1 = (contents (tab_view h i)).*1 ∧
    ∀ n xs, dget (contents (tab_view h i)) n = Some xs →
      ∃ ys, dget (contents (tab_view h' k)) n = Some ys ∧
        if bool_decide (n ∈ targets) then carried (is_missing eqb missing) none xs ys else ys = xs.
Proof. intros Hps Hik h. apply carry_forward_spec; [done|apply program_wf|apply program_names|done]. Qed.

Theorem program_stats {N A T K} `{EqDecision N, EqDecision T, EqDecision K} (ty : A → T) (key : A → K) none ps cast np_array eqb missing
    is_num num of_num other comparable me os i k targets :
  np_array missing = missing → i ≠ k →
  let h := run ty ps cast np_array eqb (empty_heap (N := N)) os in
  NoDup (tabs h i).*2 →
  (∀ n, n ∈ targets → ∃ a v, dget (tabs h i) n = Some a ∧
     value_fits ty key none cast eqb missing is_num num of_num other comparable me (col_view h a) v) →
  ∃ h', stats_method ty key none ps cast np_array eqb missing is_num num of_num other comparable me h i k targets = (h', Ok ()) ∧
    tabs h' k ≡ₚ tabs h i ∧ (∀ x, x ≠ k → tabs h' x = tabs h x) ∧
    (∀ b, (b < length (hcols h))%nat → (∀ n, (n, b) ∈ tabs h i → n ∉ targets) → pages_of h' b = pages_of h b) ∧
    ∀ n a, (n, a) ∈ tabs h i → n ∈ targets → ∃ v,
      new_value ty key none missing is_num num of_num other comparable me (col_view h a) = Ok v ∧
      col_iter (col_view h' a) = filled_with (is_missing eqb missing) v (col_iter (col_view h a)).
Proof. intros Hnp Hik h. apply stats_method_spec; [done|apply program_wf|apply program_names|done]. Qed.

Theorem table_filled {N A} `{EqDecision N, EqDecision A} (leb : A → A → bool) (missing : list A)
    (T : list (N * list (list A))) (sources targets : list N) (lens : list nat) :
  (∀ x y, leb x y = true ∨ leb y x = true) → (∀ x y z, leb x y = true → leb y z = true → leb x z = true) →
  (∀ x y, leb x y = true → leb y x = true → x = y) →
  NoDup T.*1 → Forall (λ c, map length c.2 = lens) T →
  sources ≠ [] → (∀ n, n ∈ sources → n ∈ T.*1) → targets ≠ [] → targets = filter (λ n, n ∈ targets) T.*1 →
  ∃ T', nearest leb missing T sources targets = Some T' ∧ T'.*1 = T.*1 ∧
    ∀ n c, dget T n = Some c → ∃ c', dget T' n = Some c' ∧
      if decide (n ∈ targets) then map length c' = map length c ∧ filled_from (λ x, bool_decide (x ∈ missing)) (concat c) (concat c')
      else c' = c.
Proof. intros H1 H2 H3 H4 H5 H6 H7 H8 H9. apply (nearest_filled leb missing H1 H2 H3 T sources targets lens). by constructor. Qed.

Theorem table_nearest {N A} `{EqDecision N, EqDecision A} (leb : A → A → bool) (missing : list A)
    (T : list (N * list (list A))) (sources targets : list N) (lens : list nat) :
  (∀ x y, leb x y = true ∨ leb y x = true) → (∀ x y z, leb x y = true → leb y z = true → leb x z = true) →
  (∀ x y, leb x y = true → leb y x = true → x = y) →
  NoDup T.*1 → Forall (λ c, map length c.2 = lens) T →
  sources ≠ [] → (∀ n, n ∈ sources → n ∈ T.*1) → targets ≠ [] → targets = filter (λ n, n ∈ targets) T.*1 →
  let cols := map (λ n, concat (default [] (dget T n))) sources in
  (∀ n c i x, n ∈ targets → dget T n = Some c → concat c !! i = Some x → x ∈ missing →
     ∃ k w d, concat c !! k = Some w ∧ w ∉ missing ∧ distance leb missing cols i k = Some d) →
  length lens = 1%nat ∨ length missing = 1%nat ∧ length targets = 1%nat →
  ∃ T', nearest leb missing T sources targets = Some T' ∧ T'.*1 = T.*1 ∧
    ∀ n c, dget T n = Some c → ∃ c', dget T' n = Some c' ∧
      if decide (n ∈ targets) then map length c' = map length c ∧ filled_nearest leb missing cols (concat c) (concat c')
      else c' = c.
Proof.
  intros H1 H2 H3 H4 H5 H6 H7 H8 H9 cols Hreach Hcase.
  assert (Hf : fine T sources targets lens) by (by constructor).
  destruct Hcase as [Hl|[Hm Ht]].
  - destruct lens as [|l [|? ?]]; try done. exact (nearest_page leb missing H1 H2 H3 T sources targets [l] Hf l eq_refl Hreach).
  - destruct missing as [|m [|? ?]]; try done. exact (nearest_one leb [m] H1 H2 H3 T sources targets lens Hf m eq_refl Ht Hreach).
Qed.

Lemma unknown_targets {N A T K} `{EqDecision N, EqDecision T, EqDecision K} (ty : A → T) (key : A → K) (none : A) ps cast np_array eqb missing
    is_num num of_num other comparable me (h : heap N A T) i k targets n :
  n ∈ targets → n ∉ (tabs h i).*1 →
  carry_forward ty none ps cast np_array eqb missing h i k targets = (h, Err ValueError) ∧
  stats_method ty key none ps cast np_array eqb missing is_num num of_num other comparable me h i k targets = (h, Err ValueError).
Proof.
  intros Hn Hc. unfold carry_forward, stats_method, check_targets. destruct (forallb _ targets) eqn:Hall; [|done].
  rewrite forallb_forall in Hall. apply elem_of_list_In in Hn. apply Hall, bool_decide_eq_true_1 in Hn. done.
Qed.
