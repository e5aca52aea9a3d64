(** C29 (drop_duplicates), C30-C36: joins, reindex, lookup.

    The right-hand sides are in Spec/Join.v and Spec/Rows.v.  [rect n] says that all
    columns have [n] values; [keyc] maps a value to its class under Python's [==]
    and hash; [ps] is the page size. *)
From stdpp Require Import strings.
From Verif.Spec Require Import PyList Counts Rows Join PyHash.
From Verif.Model Require Import Joins.
From Verif.Proof Require Import JoinProofs JoinFinal LookupProofs.
Local Open Scope Z_scope.

(** ** The pairs of Spec/Join.v are the right ones *)
Theorem C30_pairs :
  ∀ {K} `{EqDecision K} (lk rk : list K), NoDup (inner_pairs lk rk) ∧
  ∀ p, p ∈ inner_pairs lk rk ↔ ∃ i j k, p = (Some i, Some j) ∧ 0 <= i ∧ 0 <= j ∧
    lk !! Z.to_nat i = Some k ∧ rk !! Z.to_nat j = Some k.
Proof. intros. split; [apply inner_pairs_NoDup|apply inner_pairs_elem]. Qed.
Theorem C31_pairs :
  ∀ {K} `{EqDecision K} (lk rk : list K), NoDup (left_pairs lk rk) ∧
  ∀ p, p ∈ left_pairs lk rk ↔ p ∈ inner_pairs lk rk ∨
    ∃ i k, p = (Some i, None) ∧ 0 <= i ∧ lk !! Z.to_nat i = Some k ∧ k ∉ rk.
Proof. intros. split; [apply left_pairs_NoDup|apply left_pairs_elem]. Qed.
Theorem C32_pairs :
  ∀ {K} `{EqDecision K} (lk rk : list K) pairs, outer_pairs lk rk pairs → NoDup pairs ∧
  ∀ p, p ∈ pairs ↔ p ∈ left_pairs lk rk ∨
    ∃ j k, p = (None, Some j) ∧ 0 <= j ∧ rk !! Z.to_nat j = Some k ∧ k ∉ lk.
Proof. intros ? ? ? ? ? H. split; [by eapply outer_pairs_NoDup|]. intros p. by apply outer_pairs_elem. Qed.
Print Assumptions C30_pairs.
Print Assumptions C31_pairs.
Print Assumptions C32_pairs.

(** ** C30 *)
Theorem C30_inner_join :
  ∀ {A T} `{EqDecision T} (ty : A → T) (none : A) (ps : Z) {K} `{EqDecision K} (keyc : A → K) set_order
    (t u : table string A T) n m lkeys rkeys lcols rcols,
  0 < ps → rect n (contents t) → rect m (contents u) →
  length lkeys = length rkeys ∧ (∀ k, k ∈ lkeys → k ∈ t.*1) ∧ (∀ k, k ∈ rkeys → k ∈ u.*1) ∧
  lcols ≠ [] ∧ rcols ≠ [] ∧ (∀ k, k ∈ lcols → k ∈ t.*1) ∧ (∀ k, k ∈ rcols → k ∈ u.*1) ∧ NoDup lcols →
  lkeys ≠ [] →
  ∃ r, join ty none ps keyc set_order Inner t u lkeys rkeys lcols rcols = Ok r ∧
    joined none (contents t) (contents u) lcols rcols
      (inner_pairs (row_keys none keyc (contents t) lkeys n) (row_keys none keyc (contents u) rkeys m))
      (contents r).
Proof. intros. by apply inner_join_spec. Qed.
Example C30_example :
  let t := otable [("a", [Some 7; None; Some 7]); ("b", [Some 1; Some 2; Some 3])] in
  let u := otable [("a", [None; Some 7; Some 8; None; Some 7]); ("b", [Some 4; Some 5; Some 6; Some 7; Some 8])] in
  ∃ r, join (λ _, tt) None 2 id id Inner t u ["a"] ["a"] ["a"; "b"] ["b"] = Ok r ∧
  contents r = [("a", [Some 7; Some 7; Some 7; Some 7; None; None]);
                ("b", [Some 1; Some 1; Some 3; Some 3; Some 2; Some 2]);
                ("b_1", [Some 5; Some 8; Some 5; Some 8; Some 4; Some 7])]%string.
Proof. eexists. split; by vm_compute. Qed.
Print Assumptions C30_inner_join.

(** ** C31: a page without values in one of the chosen right columns makes the join fail
    when a left row has no match; otherwise the claim holds. *)
Theorem C31_left_join_partial :
  ∀ {A T} `{EqDecision T} (ty : A → T) (none : A) (ps : Z) {K} `{EqDecision K} (keyc : A → K) set_order
    (t u : table string A T) n m lkeys rkeys lcols rcols,
  0 < ps → rect n (contents t) → rect m (contents u) →
  length lkeys = length rkeys ∧ (∀ k, k ∈ lkeys → k ∈ t.*1) ∧ (∀ k, k ∈ rkeys → k ∈ u.*1) ∧
  lcols ≠ [] ∧ rcols ≠ [] ∧ (∀ k, k ∈ lcols → k ∈ t.*1) ∧ (∀ k, k ∈ rcols → k ∈ u.*1) ∧ NoDup lcols →
  lkeys ≠ [] →
  (∀ name c p, name ∈ rcols → dget u name = Some c → p ∈ c → pdata p ≠ []) →
  ∃ r, join ty none ps keyc set_order Left t u lkeys rkeys lcols rcols = Ok r ∧
    joined none (contents t) (contents u) lcols rcols
      (left_pairs (row_keys none keyc (contents t) lkeys n) (row_keys none keyc (contents u) rkeys m))
      (contents r).
Proof. intros. by apply left_join_spec. Qed.
Theorem C31_left_join_refuted :
  let t := otable [("a", [Some 1])]%string in
  let u : table string (option Z) unit := [("b", emptied)]%string in
  rect 1 (contents t) ∧ rect 0 (contents u) ∧ args_ok t u ["a"] ["b"] ["a"] ["b"] ∧
  join (λ _, tt) None 2 id id Left t u ["a"] ["b"] ["a"] ["b"] = Err IndexError.
Proof. exact left_join_empty_page. Qed.
Example C31_example :
  let t := otable [("a", [Some 7; None; Some 7; Some 9]); ("b", [Some 1; Some 2; Some 3; Some 4])] in
  let u := otable [("a", [Some 7; Some 8; Some 7]); ("c", [Some 5; Some 6; Some 8])] in
  ∃ r, join (λ _, tt) None 2 id id Left t u ["a"] ["a"] ["b"] ["c"; "c"] = Ok r ∧
  contents r = [("b", [Some 1; Some 1; Some 3; Some 3; Some 2; Some 4]);
                ("c", [Some 5; Some 8; Some 5; Some 8; None; None]);
                ("c_1", [Some 5; Some 8; Some 5; Some 8; None; None])]%string.
Proof. eexists. split; by vm_compute. Qed.
Print Assumptions C31_left_join_partial.
Print Assumptions C31_left_join_refuted.

(** ** C32: as C31, on both sides *)
Theorem C32_outer_join_partial :
  ∀ {A T} `{EqDecision T} (ty : A → T) (none : A) (ps : Z) {K} `{EqDecision K} (keyc : A → K) set_order
    (t u : table string A T) n m lkeys rkeys lcols rcols,
  0 < ps → rect n (contents t) → rect m (contents u) →
  length lkeys = length rkeys ∧ (∀ k, k ∈ lkeys → k ∈ t.*1) ∧ (∀ k, k ∈ rkeys → k ∈ u.*1) ∧
  lcols ≠ [] ∧ rcols ≠ [] ∧ (∀ k, k ∈ lcols → k ∈ t.*1) ∧ (∀ k, k ∈ rcols → k ∈ u.*1) ∧ NoDup lcols →
  lkeys ≠ [] → (∀ l, set_order l ≡ₚ l) →
  (∀ name c p, name ∈ lcols → dget t name = Some c → p ∈ c → pdata p ≠ []) →
  (∀ name c p, name ∈ rcols → dget u name = Some c → p ∈ c → pdata p ≠ []) →
  ∃ r pairs, join ty none ps keyc set_order Outer t u lkeys rkeys lcols rcols = Ok r ∧
    outer_pairs (row_keys none keyc (contents t) lkeys n) (row_keys none keyc (contents u) rkeys m) pairs ∧
    joined none (contents t) (contents u) lcols rcols pairs (contents r).
Proof. intros. by apply outer_join_spec. Qed.
Theorem C32_outer_join_refuted :
  let t : table string (option Z) unit := [("a", emptied)]%string in
  let u := otable [("b", [Some 1])]%string in
  rect 0 (contents t) ∧ rect 1 (contents u) ∧ args_ok t u ["a"] ["b"] ["a"] ["b"] ∧
  join (λ _, tt) None 2 id id Outer t u ["a"] ["b"] ["a"] ["b"] = Err IndexError.
Proof. exact outer_join_empty_page. Qed.
Example C32_example :
  let t := otable [("a", [Some 7; None]); ("b", [Some 1; Some 2])] in
  let u := otable [("a", [Some 7; Some 8; Some 7; Some 9; Some 8])] in
  ∃ r, join (λ _, tt) None 2 id (λ l, rev l) Outer t u ["a"] ["a"] ["a"; "b"] ["a"] = Ok r ∧
  contents r = [("a", [Some 7; Some 7; None; None; None; None]);
                ("b", [Some 1; Some 1; Some 2; None; None; None]);
                ("a_1", [Some 7; Some 7; None; Some 9; Some 8; Some 8])]%string.
Proof. eexists. split; by vm_compute. Qed.
Print Assumptions C32_outer_join_partial.
Print Assumptions C32_outer_join_refuted.

(** ** C33: fails exactly when one of the tables is empty *)
Theorem C33_cross_join_partial :
  ∀ {A T} `{EqDecision T} (ty : A → T) (none : A) (ps : Z) {K} `{EqDecision K} (keyc : A → K) set_order
    (t u : table string A T) n m lkeys rkeys lcols rcols,
  0 < ps → rect n (contents t) → rect m (contents u) →
  length lkeys = length rkeys ∧ (∀ k, k ∈ lkeys → k ∈ t.*1) ∧ (∀ k, k ∈ rkeys → k ∈ u.*1) ∧
  lcols ≠ [] ∧ rcols ≠ [] ∧ (∀ k, k ∈ lcols → k ∈ t.*1) ∧ (∀ k, k ∈ rcols → k ∈ u.*1) ∧ NoDup lcols →
  (0 < n)%nat → (0 < m)%nat →
  ∃ r, join ty none ps keyc set_order Cross t u lkeys rkeys lcols rcols = Ok r ∧
    joined none (contents t) (contents u) lcols rcols (cross_pairs n m) (contents r).
Proof. intros. by apply cross_join_spec. Qed.
Theorem C33_cross_join_empty_refuted :
  ∀ {A T} `{EqDecision T} (ty : A → T) (none : A) (ps : Z) {K} `{EqDecision K} (keyc : A → K) set_order
    (t u : table string A T) n m lkeys rkeys lcols rcols,
  rect n (contents t) → rect m (contents u) →
  length lkeys = length rkeys ∧ (∀ k, k ∈ lkeys → k ∈ t.*1) ∧ (∀ k, k ∈ rkeys → k ∈ u.*1) ∧
  lcols ≠ [] ∧ rcols ≠ [] ∧ (∀ k, k ∈ lcols → k ∈ t.*1) ∧ (∀ k, k ∈ rcols → k ∈ u.*1) ∧ NoDup lcols →
  n = 0%nat ∨ m = 0%nat →
  join ty none ps keyc set_order Cross t u lkeys rkeys lcols rcols = Err ValueError.
Proof. intros. by eapply cross_join_empty. Qed.
Example C33_example :
  let t := otable [("a", [Some 7; None; Some 3])] in
  let u := otable [("a", [Some 1; Some 2])] in
  (∃ r, join (λ _, tt) None 2 id id Cross t u ["a"] ["a"] ["a"] ["a"] = Ok r ∧
   contents r = [("a", [Some 7; Some 7; None; None; Some 3; Some 3]);
                 ("a_1", [Some 1; Some 2; Some 1; Some 2; Some 1; Some 2])]%string) ∧
  join (λ _, tt) None 2 id id Cross t (otable [("a", [])]) ["a"] ["a"] ["a"] ["a"] = Err ValueError.
Proof. split; [|by vm_compute]. eexists. split; by vm_compute. Qed.
Print Assumptions C33_cross_join_partial.
Print Assumptions C33_cross_join_empty_refuted.

(** ** C34: for every kind of join, whenever there is a result *)
Theorem C34_join_names :
  ∀ {A T} `{EqDecision T} (ty : A → T) (none : A) (ps : Z) {K} `{EqDecision K} (keyc : A → K) set_order
    kind (t u r : table string A T) lkeys rkeys lcols rcols,
  join ty none ps keyc set_order kind t u lkeys rkeys lcols rcols = Ok r →
  ∃ given, names (contents r) = lcols ++ given ∧ NoDup (lcols ++ given) ∧ fresh_names lcols rcols given.
Proof. intros until 1. by eapply join_names. Qed.
Example C34_example :
  let t := otable [("a", [Some 1]); ("a_1", [Some 2])] in
  ∃ r, join (λ _, tt) None 2 id id Cross t t ["a"] ["a"] ["a"; "a_1"] ["a_1"; "a"] = Ok r ∧
  contents r = [("a", [Some 1]); ("a_1", [Some 2]); ("a_1_1", [Some 2]); ("a_2", [Some 1])]%string.
Proof. eexists. split; by vm_compute. Qed.
Print Assumptions C34_join_names.

(** ** C35: full claim: the rows of the result are those of [t], each with the first row of
    [u] that meets the criteria, or Nones.  Wrong when two left rows have the same hash
    (the cache is keyed by it), and fails when the left table has more than one page
    and some row has no match. *)
Theorem C35_lookup_partial :
  ∀ {A T} `{EqDecision T} (ty : A → T) (none : A) (ps : Z)
    (hash : list A → Z) (hold : list A → list A → bool) (t u : table string A T) n m lcols rcols,
  0 < ps → NoDup t.*1 → NoDup u.*1 → t ≠ [] → u ≠ [] → rect n (contents t) → rect m (contents u) →
  lcols ≠ [] → rcols ≠ [] → (∀ k, k ∈ lcols → k ∈ t.*1) → (∀ k, k ∈ rcols → k ∈ u.*1) →
  let rows1 := row_keys none (λ x, x) (contents t) lcols n in
  let rows2 := row_keys none (λ x, x) (contents u) rcols m in
  (∀ r1 r2, r1 ∈ rows1 → r2 ∈ rows1 → hash r1 = hash r2 → r1 = r2) →
  (Z.of_nat n <= ps ∧ ∀ name c p, dget u name = Some c → p ∈ c → pdata p ≠ []) ∨
  (∀ r1, r1 ∈ rows1 → ∃ r2, r2 ∈ rows2 ∧ hold r1 r2 = true) →
  ∃ r given idx, lookup ty none ps hash hold lcols rcols t u = Ok r ∧
    names (contents r) = names (contents t) ++ given ∧ NoDup (names (contents r)) ∧
    fresh_names (names (contents t)) (names (contents u)) given ∧
    Forall2 (λ r1 o, first_match (hold r1) rows2 o) rows1 idx ∧
    rows none (contents r) = zip_with (λ row o, row ++ orow none (contents u) o) (rows none (contents t)) idx.
Proof. intros. by apply lookup_spec. Qed.
(** The test applied to two rows is the conjunction (or disjunction) of the criteria, the names
    in them standing for the fields of the two rows. *)
Theorem C35_criteria :
  ∀ {A T} `{EqDecision T} (none : A) (t u : table string A T) (all_ : bool) (criteria : list criterion)
    (lcols rcols : list string) (i j : nat),
  (∀ n, n ∈ lcols ↔ n ∈ t.*1 ∧ ∃ c, c ∈ criteria ∧ side_name c.1.2 = Some n) →
  (∀ n, n ∈ rcols ↔ n ∈ u.*1 ∧ ∃ c, c ∈ criteria ∧ side_name c.2 = Some n) →
  let meets (c : criterion) := c.1.1
      (term_value none (contents t) i (side_name c.1.2) (side_literal c.1.2))
      (term_value none (contents u) j (side_name c.2) (side_literal c.2)) = true in
  criteria_of all_ criteria lcols rcols (row_key none (λ x, x) (contents t) lcols i)
    (row_key none (λ x, x) (contents u) rcols j) = true ↔
  if all_ then ∀ c, c ∈ criteria → meets c else ∃ c, c ∈ criteria ∧ meets c.
Proof. intros. by apply criteria_spec. Qed.
Example C35_criteria_example :
  let t := otable [("a", [Some 3; Some 5])] in
  let u := otable [("b", [Some 2; Some 4])] in
  let lt := λ x y : option Z, match x, y with Some x, Some y => x <? y | _, _ => false end in
  let cs := [(lt, Side (Some "a") None, Side (Some "b") None); (lt, Side None (Some 3), Side (Some "b") None)] in
  criteria_of true cs ["a"] ["b"] [Some 5] [Some 4] = false ∧ criteria_of false cs ["a"] ["b"] [Some 5] [Some 4] = true ∧
  criteria_of true cs ["a"] ["b"] [Some 3] [Some 4] = true ∧
  (∃ r, lookup (λ _, tt) None 2 oints_hash (criteria_of true cs ["a"] ["b"]) ["a"] ["b"] t u = Ok r ∧
    contents r = [("a", [Some 3; Some 5]); ("b", [Some 4; None])]%string).
Proof. split; [done|]. split; [done|]. split; [done|]. eexists. split; by vm_compute. Qed.
Theorem C35_collision_refuted :
  let t := otable [("a", [Some (-1); Some (-2)])]%string in
  let u := otable [("b", [Some (-1); Some (-2)])]%string in
  ∃ r, lookup (λ _, tt) None 2 oints_hash (λ r1 r2, bool_decide (r1 = r2)) ["a"] ["b"] t u = Ok r ∧
    rows None (contents r) = [[Some (-1); Some (-1)]; [Some (-2); Some (-1)]].
Proof. exact lookup_collision. Qed.
Theorem C35_two_pages_refuted :
  let t := otable [("a", [Some 1; Some 2; Some 3])]%string in
  let u := otable [("b", [Some 3; Some 1])]%string in
  lookup (λ _, tt) None 2 oints_hash (λ r1 r2, bool_decide (r1 = r2)) ["a"] ["b"] t u = Err ValueError.
Proof. exact lookup_two_pages. Qed.
Example C35_example :
  let t := otable [("a", [Some 3; Some 5; Some 3; Some 1])] in
  let u := otable [("b", [Some 2; Some 4; Some 4; Some 9]); ("a", [Some 1; Some 2; Some 3; Some 4])] in
  let hold := λ r1 r2 : list (option Z), match r1, r2 with [Some x], [Some y] => x <? y | _, _ => false end in
  ∃ r, lookup (λ _, tt) None 2 oints_hash hold ["a"] ["b"] t u = Ok r ∧
  contents r = [("a", [Some 3; Some 5; Some 3; Some 1]); ("b", [Some 4; Some 9; Some 4; Some 2]);
                ("a_1", [Some 2; Some 4; Some 2; Some 1])]%string.
Proof. eexists. split; by vm_compute. Qed.
Print Assumptions C35_lookup_partial.
Print Assumptions C35_criteria.
Print Assumptions C35_collision_refuted.
Print Assumptions C35_two_pages_refuted.

(** ** C36: full claim: row [i] of the result is row [index[i]], Nones for -1.  False for
    an index of more than one page that contains -1.  Positions beyond the end of a column are
    left out: what stands for such a cell depends on the dtype of the pages (Model/Column.v). *)
Theorem C36_reindex_partial :
  ∀ {A T} `{EqDecision T} (ty : A → T) (none : A) (ps : Z) (t : table string A T) (index : list Z),
  0 < ps → NoDup t.*1 → t ≠ [] → Forall (λ i, -1 <= i) index →
  (∀ name c, dget t name = Some c → Forall (λ i, i < zlen (col_iter c)) index) →
  (zlen index <= ps ∧ ∀ name c p, dget t name = Some c → p ∈ c → pdata p ≠ []) ∨ -1 ∉ index →
  ∃ r, reindex ty none ps t index = Ok r ∧ names (contents r) = names (contents t) ∧
    rows none (contents r) = map (λ i, orow none (contents t) (if i =? -1 then None else Some i)) index.
Proof. intros * H1 H2 H3 H4 _ H6. by apply reindex_rows. Qed.
Theorem C36_two_pages_refuted :
  let t := otable [("a", [Some 1; Some 2; Some 3])]%string in
  reindex (λ _, tt) None 2 t [0; -1; 2] = Err ValueError ∧
  ∃ r, reindex (λ _, tt) None 2 t [0; 1; -1] = Ok r ∧ contents r = [("a", [Some 1; Some 2; None; None; None])]%string.
Proof. exact reindex_two_pages. Qed.
Example C36_example :
  let t := otable [("a", [Some 1; Some 2; Some 3]); ("b", [None; Some 5; Some 6])] in
  (∃ r, reindex (λ _, tt) None 2 t [2; 0; 0; 1; 2] = Ok r ∧
    contents r = [("a", [Some 3; Some 1; Some 1; Some 2; Some 3]); ("b", [Some 6; None; None; Some 5; Some 6])]%string) ∧
  (∃ r, reindex (λ _, tt) None 2 t [2; -1] = Ok r ∧
    contents r = [("a", [Some 3; None]); ("b", [Some 6; None])]%string).
Proof. split; eexists; split; by vm_compute. Qed.
Print Assumptions C36_reindex_partial.
Print Assumptions C36_two_pages_refuted.

(** ** C29, [drop_duplicates] *)
Theorem C29_drop_duplicates_partial :
  ∀ {A T} `{EqDecision T} (ty : A → T) (none : A) (ps : Z) {K} `{EqDecision K} (keyc : A → K)
    (hash : list K → Z) (t : table string A T) n args,
  0 < ps → NoDup t.*1 → t ≠ [] → rect n (contents t) → (∀ k, k ∈ args → k ∈ t.*1) →
  let ks := row_keys none keyc (contents t) (match args with [] => t.*1 | _ => args end) n in
  (∀ k1 k2, k1 ∈ ks → k2 ∈ ks → hash k1 = hash k2 → k1 = k2) →
  ∃ r ixs, drop_duplicates ty none ps keyc hash t args = Ok r ∧ first_occurrences ks ixs ∧
    names (contents r) = names (contents t) ∧
    rows none (contents r) = map (λ i, row none (contents t) (Z.to_nat i)) ixs.
Proof. intros. by apply drop_duplicates_spec. Qed.
Theorem C29_drop_duplicates_collision_refuted :
  let t := otable [("a", [Some (-1); Some (-2)])]%string in
  ∃ r, drop_duplicates (λ _, tt) None 2 id oints_hash t ["a"] = Ok r ∧ rows None (contents r) = [[Some (-1)]].
Proof. exact drop_duplicates_collision. Qed.
Example C29_drop_example :
  let t := otable [("a", [Some 1; Some 2; Some 1; Some 1]); ("b", [Some 3; Some 3; Some 4; Some 3])] in
  ∃ r, drop_duplicates (λ _, tt) None 2 id oints_hash t [] = Ok r ∧
    rows None (contents r) = [[Some 1; Some 3]; [Some 2; Some 3]; [Some 1; Some 4]].
Proof. eexists. split; by vm_compute. Qed.
Print Assumptions C29_drop_duplicates_partial.
Print Assumptions C29_drop_duplicates_collision_refuted.
