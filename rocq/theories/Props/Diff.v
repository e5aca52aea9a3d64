(** C60: diff.

    [matching a b] stands for the matching blocks that difflib finds; what is assumed of them
    ([blocks_ok]) is what its documentation says.  [listed ls out]: the entries of a listing of
    differences that have one of the labels [ls]; [entry_row text e]: an entry as a row, the labels
    last. *)
From Verif.Proof Require Import DiffProofs.
Local Open Scope Z_scope.

(** The full statement: both tables (the selected columns) can be read from the result.  False: of
    replaced rows only the new ones are listed; *)
Theorem C60_replace_refuted : ∃ t t' u : table string cell ctype,
  contents t ≠ contents t' ∧ t.*1 = u.*1 ∧ t'.*1 = u.*1 ∧
  ∀ matching : list (list cell) → list (list cell) → list (nat * nat * nat),
    (∀ a b, blocks_ok eq a b 0 0 (matching a b)) →
    diff cty CNone 4 CStr np_array_of matching t u None = diff cty CNone 4 CStr np_array_of matching t' u None.
Proof. exact diff_replace_loses. Qed.
Print Assumptions C60_replace_refuted.
(** the other columns are compared as well, here "b"; *)
Theorem C60_selection_refuted : ∃ t u : table string cell ctype,
  dget (contents t) "a" = dget (contents u) "a" ∧
  ∀ matching : list (list cell) → list (list cell) → list (nat * nat * nat),
    (∀ a b, blocks_ok eq a b 0 0 (matching a b)) →
    res_map contents (diff cty CNone 4 CStr np_array_of matching t u (Some ["a"]%string))
    = Ok [("a", [CInt 1]); ("1st", [CStr "r"]); ("2nd", [CStr "r"])]%string.
Proof. exact diff_other_columns. Qed.
Print Assumptions C60_selection_refuted.
(** and with the columns in another order the values are listed under wrong names; *)
Theorem C60_order_refuted : ∃ t : table string cell ctype,
  dget (contents t) "b" = Some [CInt 2] ∧
  ∀ matching : list (list cell) → list (list cell) → list (nat * nat * nat),
    (∀ a b, blocks_ok eq a b 0 0 (matching a b)) →
    res_map (λ r, dget (contents r) "b") (diff cty CNone 4 CStr np_array_of matching t t (Some ["b"; "a"]%string)) = Ok (Some [CInt 1]).
Proof. exact diff_column_order. Qed.
Print Assumptions C60_order_refuted.
(** numbers next to texts become texts. *)
Theorem C60_text_refuted : ∃ (t u : table string cell ctype) (blocks : list (nat * nat * nat)),
  blocks_ok eq (rows CNone (contents t)) (rows CNone (contents u)) 0 0 blocks ∧
  contents u = [("a", [CInt 1; CStr "x"])]%string ∧
  res_map contents (diff cty CNone 4 CStr np_array_of (λ _ _, blocks) t u None)
  = Ok [("a", [CStr "1"; CStr "x"]); ("1st", [CStr "="; CStr "="]); ("2nd", [CStr "="; CStr "="])]%string.
Proof. exact diff_text. Qed.
Print Assumptions C60_text_refuted.

(** Proved for tables with the same columns in the same order, whatever blocks are found, when
    [np.array] keeps the columns: the second table is what is labelled as new, common or replaced;
    the entries labelled as old or common are (up to [R], i.e. [==]) rows of the first table in
    their order, and all of them if there is no replacement. *)
Theorem C60_diff_partial {A T} `{EqDecision T} (ty : A → T) (none : A) (ps : Z) (text : string → A)
    (np_array : list A → list A) (R : list A → list A → Prop)
    (matching : list (list A) → list (list A) → list (nat * nat * nat))
    (t u : table string A T) (columns : option (list string)) :
  0 < ps → (∀ x, R x x) → t ≠ [] → NoDup t.*1 → u.*1 = t.*1 → (columns = None ∨ columns = Some t.*1) →
  let a := rows none (contents t) in
  let b := rows none (contents u) in
  blocks_ok R a b 0 0 (matching a b) →
  (∀ i l, Forall (λ v, ∃ r, r ∈ a ++ b ∧ r !! i = Some v) l → np_array l = l) →
  (∀ l, np_array (map text l) = map text l) →
  ∃ t' first second (out : list (list A * labels)),
    diff ty none ps text np_array matching t u columns = Ok t' ∧
    names (contents t') = t.*1 ++ [first; second] ∧ rect (length out) (contents t') ∧
    rows none (contents t') = map (entry_row text) out ∧
    Forall (λ e, e.1 ∈ a ++ b ∧ e.2 ∈ [only_first; only_second; both; replaced]) out ∧
    listed [only_second; both; replaced] out = b ∧
    (∃ sub, sub `sublist_of` a ∧ Forall2 R sub (listed [only_first; both] out)) ∧
    ((∀ r, (r, replaced) ∉ out) → Forall2 R a (listed [only_first; both] out)).
Proof. exact (diff_spec ty none ps text np_array R matching t u columns). Qed.
Print Assumptions C60_diff_partial.

(** an old row, two common ones, a new one, a replaced one *)
Example C60_example :
  let t := cell_cols [("k", [CInt 1; CInt 2; CInt 3; CInt 4]); ("1st", [CInt 5; CInt 6; CInt 7; CInt 8])]%string in
  let u := cell_cols [("k", [CInt 2; CInt 9; CInt 3; CInt 5; CInt 5]); ("1st", [CInt 6; CInt 9; CInt 7; CInt 8; CInt 9])]%string in
  let blocks := [(1, 0, 1); (2, 2, 1); (4, 5, 0)]%nat in
  blocks_ok eq (rows CNone (contents t)) (rows CNone (contents u)) 0 0 blocks ∧
  res_map (λ r, (names (contents r), rows CNone (contents r))) (diff cty CNone 4 CStr np_array_of (λ _ _, blocks) t u None)
  = Ok (["k"; "1st"; "1st_1"; "2nd"]%string,
        [[CInt 1; CInt 5; CStr "+"; CStr "-"]; [CInt 2; CInt 6; CStr "="; CStr "="]; [CInt 9; CInt 9; CStr "-"; CStr "+"];
         [CInt 3; CInt 7; CStr "="; CStr "="]; [CInt 5; CInt 8; CStr "r"; CStr "r"]; [CInt 5; CInt 9; CStr "r"; CStr "r"]]).
Proof. split; [|by vm_compute]. vm_compute. repeat split; try lia; repeat constructor. Qed.
