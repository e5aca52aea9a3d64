(** C104: joins with merged keys (joins.py with merge_keys=True).

    The right-hand sides are in Spec/JoinMerge.v and Spec/Join.v.  [rect n] says that all columns have [n] values;
    [keyc] maps a value to its class under Python's [==] and hash; [ps] is the page size.

    Full claim: for all kinds of joins and all arguments that a join takes, the join with merged keys succeeds and its rows are those of
    the join: the left columns, where a key has the value of the left row or, without one, of the right row; then the right columns
    that are no keys. *)
From stdpp Require Import strings.
From Verif.Spec Require Import PyList Counts Rows Join JoinMerge PyHash TableTerms.
From Verif.Model Require Import Joins JoinMerge.
From Verif.Proof Require Import JoinProofs JoinFinal LookupProofs JoinMergeProofs.
Local Open Scope Z_scope.

(** ** Without merging this is the join of C30-C33 *)
Theorem C104_plain :
  ∀ {A T} `{EqDecision T} (ty : A → T) (none : A) (ps : Z) {K} `{EqDecision K} (keyc : A → K) set_order
    kind (t u : table string A T) lkeys rkeys lcols rcols,
  join_with ty none ps keyc set_order false kind t u lkeys rkeys lcols rcols =
  Joins.join ty none ps keyc set_order kind t u lkeys rkeys lcols rcols.
Proof. intros. apply join_with_plain. Qed.
Print Assumptions C104_plain.

(** ** With merging.  The part that holds: the keys are among the chosen columns, no key is given twice, and each right key has in
    the join (where [lcols] are taken before it, and the right columns before it) the name that step 5 computes from the columns of the
    left table alone.  Two cases where the last condition holds are C104_disjoint and C104_first below.
    A left join takes the value of the right row where there is one, the other kinds take the value of the left row. *)
Theorem C104_merge_partial :
  ∀ {A T} `{EqDecision T} (ty : A → T) (none : A) (ps : Z) {K} `{EqDecision K} (keyc : A → K) set_order
    kind (t u : table string A T) n m lkeys rkeys lcols rcols,
  0 < ps → rect n (contents t) → rect m (contents u) →
  length lkeys = length rkeys ∧ (∀ k, k ∈ lkeys → k ∈ t.*1) ∧ (∀ k, k ∈ rkeys → k ∈ u.*1) ∧
  lcols ≠ [] ∧ rcols ≠ [] ∧ (∀ k, k ∈ lcols → k ∈ t.*1) ∧ (∀ k, k ∈ rcols → k ∈ u.*1) ∧ NoDup lcols →
  lkeys ≠ [] → (∀ l, set_order l ≡ₚ l) →
  NoDup lkeys → NoDup rkeys → (∀ k, k ∈ lkeys → k ∈ lcols) → (∀ k, k ∈ rkeys → k ∈ rcols) →
  (∀ given k g, fresh_names lcols rcols given → (k, g) ∈ zip rcols given → k ∈ rkeys → fresh_names t.*1 [k] [g]) →
  (kind = Outer → ∀ name c p, name ∈ lcols → dget t name = Some c → p ∈ c → pdata p ≠ []) →
  (kind = Outer ∨ kind = Left → ∀ name c p, name ∈ rcols → dget u name = Some c → p ∈ c → pdata p ≠ []) →
  (kind = Cross → (0 < n)%nat ∧ (0 < m)%nat) →
  ∃ r pairs, join_with ty none ps keyc set_order true kind t u lkeys rkeys lcols rcols = Ok r ∧
    pairs_of kind (row_keys none keyc (contents t) lkeys n) (row_keys none keyc (contents u) rkeys m) pairs ∧
    keys_merged none (match kind with Left => true | _ => false end) (contents t) (contents u) lkeys rkeys lcols rcols pairs (contents r).
Proof. intros. by apply join_merged. Qed.

(** The condition on names holds when the tables share no name and no right column is given twice. *)
Theorem C104_disjoint :
  ∀ (columns lcols rcols rkeys : list string),
  (∀ k, k ∈ lcols → k ∈ columns) → (∀ k, k ∈ rcols → k ∉ columns) → NoDup rcols →
  ∀ given k g, fresh_names lcols rcols given → (k, g) ∈ zip rcols given → k ∈ rkeys → fresh_names columns [k] [g].
Proof. exact names_disjoint. Qed.
(** It holds when there is one key, given as the first right column and not again, and all left columns are kept. *)
Theorem C104_first :
  ∀ (columns lcols rest : list string) (key : string),
  (∀ k, k ∈ lcols ↔ k ∈ columns) → key ∉ rest →
  ∀ given k g, fresh_names lcols (key :: rest) given → (k, g) ∈ zip (key :: rest) given → k ∈ [key] → fresh_names columns [k] [g].
Proof. exact names_first. Qed.
Print Assumptions C104_disjoint.
Print Assumptions C104_first.

(** Whichever value is taken, it equals the keys of both rows. *)
Theorem C104_equal :
  ∀ {A K} `{EqDecision K} (none : A) (keyc : A → K) kind (v w : list (string * list A)) n m lkeys rkeys pairs,
  kind ≠ Cross → pairs_of kind (row_keys none keyc v lkeys n) (row_keys none keyc w rkeys m) pairs →
  ∀ prefer l r p, (l, r) ∈ zip lkeys rkeys → p ∈ pairs →
    (∀ i, p.1 = Some i → keyc (merged_key none prefer v w l r p) = keyc (field none v l (Z.to_nat i))) ∧
    (∀ j, p.2 = Some j → keyc (merged_key none prefer v w l r p) = keyc (field none w r (Z.to_nat j))).
Proof. intros. by eapply merged_key_agrees. Qed.

Example C104_outer :
  let t := otable [("a", [Some 7; None; Some 7; Some 9]); ("b", [Some 1; Some 2; Some 3; Some 4])] in
  let u := otable [("a", [Some 8; Some 7; Some 6]); ("c", [Some 5; Some 6; Some 7]); ("b", [Some 11; Some 12; Some 13])] in
  ∃ r, join_with (λ _, tt) None 2 id id true Outer t u ["a"] ["a"] ["a"; "b"] ["a"; "c"; "b"] = Ok r ∧
  contents r = [("a", [Some 7; Some 7; None; Some 9; Some 8; Some 6]);
                ("b", [Some 1; Some 3; Some 2; Some 4; None; None]);
                ("c", [Some 6; Some 6; None; None; Some 5; Some 7]);
                ("b_1", [Some 12; Some 12; None; None; Some 11; Some 13])]%string.
Proof. eexists. split; by vm_compute. Qed.
Example C104_inner :
  let t := otable [("a", [Some 7; None; Some 7]); ("b", [Some 1; Some 2; Some 3])] in
  let u := otable [("x", [Some 3; Some 2; Some 1]); ("c", [Some 5; Some 6; Some 7]); ("y", [Some 7; None; Some 7])] in
  ∃ r, join_with (λ _, tt) None 2 id id true Inner t u ["a"; "b"] ["y"; "x"] ["b"; "a"] ["x"; "y"; "c"] = Ok r ∧
  contents r = [("b", [Some 1; Some 2; Some 3]); ("a", [Some 7; None; Some 7]); ("c", [Some 7; Some 6; Some 5])]%string.
Proof. eexists. split; by vm_compute. Qed.
Print Assumptions C104_merge_partial.
Print Assumptions C104_equal.

(** ** What fails *)

(** The name of the merged column is computed again: here the right table has a column "a_1" before its key "a".  In the join the key
    is "a_2", but step 5 takes "a_1": the key of the second row has the value of another column, the key's column stays and the
    other column is gone. *)
Theorem C104_name_refuted :
  let t := otable [("a", [Some 7])]%string in
  let u := otable [("a_1", [Some 100; Some 200]); ("a", [Some 7; Some 8])]%string in
  args_ok t u ["a"] ["a"] ["a"] ["a_1"; "a"] ∧
  ∃ r, join_with (λ _, tt) None 2 id id true Outer t u ["a"] ["a"] ["a"] ["a_1"; "a"] = Ok r ∧
  contents r = [("a", [Some 7; Some 200]); ("a_2", [Some 7; Some 8])]%string.
Proof.
  split; [|eexists; split; by vm_compute].
  repeat split; try done; try set_solver. apply (bool_decide_unpack _). by vm_compute.
Qed.
Print Assumptions C104_name_refuted.

(** The name is computed from all columns of the left table, also those that are not kept: a join that keeps the key alone fails. *)
Theorem C104_columns_refuted :
  let t := otable [("k", [Some 7]); ("a", [Some 1])]%string in
  let u := otable [("a", [Some 7])]%string in
  args_ok t u ["k"] ["a"] ["k"] ["a"] ∧
  (∃ r, join_with (λ _, tt) None 2 id id false Inner t u ["k"] ["a"] ["k"] ["a"] = Ok r ∧ contents r = [("k", [Some 7]); ("a", [Some 7])]%string) ∧
  join_with (λ _, tt) None 2 id id true Inner t u ["k"] ["a"] ["k"] ["a"] = Err KeyError.
Proof.
  split; [|split; [eexists; split; by vm_compute|by vm_compute]].
  repeat split; try done; try set_solver. apply (bool_decide_unpack _). by vm_compute.
Qed.
Print Assumptions C104_columns_refuted.

(** A right key that is compared with two left keys is deleted twice. *)
Theorem C104_twice_refuted :
  let t := otable [("k", [Some 7]); ("l", [Some 7])]%string in
  let u := otable [("a", [Some 7]); ("b", [Some 9])]%string in
  args_ok t u ["k"; "l"] ["a"; "a"] ["k"; "l"] ["a"; "b"] ∧
  join_with (λ _, tt) None 2 id id true Inner t u ["k"; "l"] ["a"; "a"] ["k"; "l"] ["a"; "b"] = Err KeyError.
Proof.
  split; [|by vm_compute].
  repeat split; try done; try set_solver. apply (bool_decide_unpack _). by vm_compute.
Qed.
Print Assumptions C104_twice_refuted.

(** A left join takes the value of the right row: the keys of the left table 1 and 2 become equal ones of the right table
    (here, as Python's 1 == True, -1 is a value equal to 1). *)
Theorem C104_left_value_refuted :
  let t := otable [("k", [Some 1; Some 2])]%string in
  let u := otable [("a", [Some (-1)])]%string in
  let keyc := option_map Z.abs in
  args_ok t u ["k"] ["a"] ["k"] ["a"] ∧
  ∃ r, join_with (λ _, tt) None 2 keyc id true Left t u ["k"] ["a"] ["k"] ["a"] = Ok r ∧ contents r = [("k", [Some (-1); Some 2])]%string.
Proof.
  split; [|eexists; split; by vm_compute].
  repeat split; try done; try set_solver. apply (bool_decide_unpack _). by vm_compute.
Qed.
Print Assumptions C104_left_value_refuted.

(** A cross join pairs rows with different keys; the right ones are gone. *)
Theorem C104_cross_refuted :
  let t := otable [("k", [Some 1; Some 2])]%string in
  let u := otable [("a", [Some 3])]%string in
  args_ok t u ["k"] ["a"] ["k"] ["a"] ∧
  ∃ r, join_with (λ _, tt) None 2 id id true Cross t u ["k"] ["a"] ["k"] ["a"] = Ok r ∧ contents r = [("k", [Some 1; Some 2])]%string.
Proof.
  split; [|eexists; split; by vm_compute].
  repeat split; try done; try set_solver. apply (bool_decide_unpack _). by vm_compute.
Qed.
Print Assumptions C104_cross_refuted.

(** Without keys a left join is an empty table; merging no keys fails. *)
Theorem C104_no_keys_refuted :
  let t := otable [("k", [Some 1; Some 2])]%string in
  let u := otable [("a", [Some 3])]%string in
  (∃ r, join_with (λ _, tt) None 2 id id false Left t u [] [] ["k"%string] ["a"%string] = Ok r ∧ contents r = [("k", []); ("a", [])]%string) ∧
  join_with (λ _, tt) None 2 id id true Left t u [] [] ["k"%string] ["a"%string] = Err ZeroDivisionError.
Proof. split; [eexists; split; by vm_compute|by vm_compute]. Qed.
Print Assumptions C104_no_keys_refuted.
