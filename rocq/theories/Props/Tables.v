(** C22-C29 and the table part of C17: tablite's [BaseTable] (base.py 1113-1992).

    [contents t] is the table as a list of named lists ([list(t[name])] for each
    name); the right-hand sides are the functions of Spec/Rows.v.  A table is
    any list of columns, each any list of pages; [NoDup t.*1] holds of every
    Python dict.  Column objects shared between names or tables are not
    represented here. *)
From stdpp Require Import strings.
From Verif.Spec Require Import PyList Counts Rows PyHash.
From Verif.Model Require Import Table.
From Verif.Proof Require Import ColumnFinal TableBase TableProofs TableRows TableStack TableSelect TableMisc.
Local Open Scope Z_scope.

(** ** C17, the part on tables whose columns are distinct objects *)
Theorem C17_table_repeat_partial :
  ∀ {N A T} (t : table N A T) n,
  0 < n → res_map contents (tbl_imul t n)
          = Ok (map (λ c, (c.1, concat (replicate (Z.to_nat n) c.2))) (contents t)).
Proof. exact @tbl_imul_spec. Qed.
Theorem C17_table_concat :
  ∀ {N A T} `{EqDecision N} (t u : table N A T),
  NoDup t.*1 → NoDup u.*1 → (∀ n, n ∈ t.*1 ↔ n ∈ u.*1) →
  res_map contents (tbl_iadd t u)
  = Ok (map (λ c, (c.1, c.2 ++ default [] (dget (contents u) c.1))) (contents t)).
Proof. exact @tbl_iadd_spec. Qed.
Theorem C17_table_concat_rejects :
  ∀ {N A T} `{EqDecision N} (t u : table N A T) n,
  (n ∈ t.*1 ∧ n ∉ u.*1) ∨ (n ∈ u.*1 ∧ n ∉ t.*1) → tbl_iadd t u = Err ValueError.
Proof. exact @tbl_iadd_rejects. Qed.
Example C17_table_example :
  let t := ztable [("a", [1; 2; 3]); ("b", [4; 5; 6])] in
  let u := ztable [("b", [8]); ("a", [7])] in
  res_map contents (tbl_imul t 2) = Ok [("a", [1; 2; 3; 1; 2; 3]); ("b", [4; 5; 6; 4; 5; 6])] ∧
  res_map contents (tbl_iadd t u) = Ok [("a", [1; 2; 3; 7]); ("b", [4; 5; 6; 8])].
Proof. by vm_compute. Qed.
Print Assumptions C17_table_repeat_partial.
Print Assumptions C17_table_concat.
Print Assumptions C17_table_concat_rejects.

(** ** C22 *)
Theorem C22_rows :
  ∀ {N A T} `{EqDecision N} (none : A) (t : table N A T),
  tbl_rows none t = Ok (rows none (contents t)) ∧ tbl_len t = Z.of_nat (nrows (contents t)).
Proof. intros. split; [apply tbl_rows_spec|apply tbl_len_spec]. Qed.
Example C22_example :
  tbl_rows 0 (ztable [("a", [1; 2; 3]); ("b", [4]); ("c", [])]) = Ok [[1; 4; 0]; [2; 0; 0]; [3; 0; 0]].
Proof. by vm_compute. Qed.
Print Assumptions C22_rows.

(** ** C23: true except that headers without rows give no columns at all *)
Theorem C23_headers_rows_partial :
  ∀ {N A T} `{EqDecision N, EqDecision T} (ty : A → T) (none : A) ps (h : list N) (r : list (list A)),
  0 < ps → NoDup h → h ≠ [] → r ≠ [] → Forall (λ x, length x = length h) r →
  let t := tbl_init ty ps h r in
  names (contents t) = h ∧ rows none (contents t) = r.
Proof. intros. by apply tbl_init_spec. Qed.
Theorem C23_no_rows_refuted :
  ∃ (h : list string) (r : list (list Z)), NoDup h ∧ Forall (λ x, length x = length h) r ∧
    names (contents (tbl_init one_ty 2 h r)) ≠ h.
Proof. exact init_no_rows_wrong. Qed.
Example C23_example :
  contents (tbl_init one_ty 2 ["a"; "b"] [[1; 2]; [3; 4]; [5; 6]])
  = [("a", [1; 3; 5]); ("b", [2; 4; 6])].
Proof. by vm_compute. Qed.
Print Assumptions C23_headers_rows_partial.
Print Assumptions C23_no_rows_refuted.

(** ** C24: exact, but any two tables without rows are equal *)
Theorem C24_table_eq_partial :
  ∀ {N A T} `{EqDecision N} (eqb neb : A → A → bool) (same_page : page A T → page A T → bool),
  (∀ x, eqb x x = true) → (∀ x y, neb x y = negb (eqb x y)) →
  (∀ p q, same_page p q = true → p = q) →
  ∀ t u : table N A T, NoDup t.*1 → NoDup u.*1 →
  tbl_eq eqb neb same_page false t u = true ↔
  (nrows (contents t) = 0%nat ∧ nrows (contents u) = 0%nat)
  ∨ same_view (λ x y, eqb x y = true) (contents t) (contents u).
Proof. exact @tbl_eq_spec. Qed.
Theorem C24_table_eq_dict :
  ∀ {N A T} `{EqDecision N} (eqb : A → A → bool) (t : table N A T) (d : list (N * list A)),
  NoDup t.*1 → NoDup d.*1 →
  tbl_eq_dict eqb t d = true ↔ same_view (λ x y, eqb x y = true) (contents t) d.
Proof. exact @tbl_eq_dict_spec. Qed.
Theorem C24_no_rows_refuted :
  ∃ t u : table string Z unit,
    tbl_eq Z.eqb (λ x y, negb (Z.eqb x y)) (λ _ _, false) false t u = true ∧
    names (contents t) ≠ names (contents u) ∧ ¬ same_view eq (contents t) (contents u).
Proof. exact eq_empty_wrong. Qed.
Example C24_example :
  let eq := tbl_eq Z.eqb (λ x y, negb (Z.eqb x y)) (λ _ _, false) false in
  let t := ztable [("a", [1; 2; 3]); ("b", [4; 5; 6])] in
  eq t (ztable [("b", [4; 5; 6]); ("a", [1; 2; 3])]) = true ∧
  eq t (ztable [("b", [4; 5; 6]); ("a", [1; 2; 4])]) = false ∧
  eq t (ztable [("b", [4; 5; 6]); ("c", [1; 2; 3])]) = false.
Proof. by vm_compute. Qed.
Print Assumptions C24_table_eq_partial.
Print Assumptions C24_table_eq_dict.
Print Assumptions C24_no_rows_refuted.

(** ** C25: [arg_row ns a r] says that the positional argument [a], a list or a dict, stands
    for the row [r] *)
Theorem C25_add_rows :
  ∀ {N A T} `{EqDecision N, EqDecision T} (ty : A → T) (none : A) ps (t : table N A T) n args rs,
  0 < ps → NoDup t.*1 → t ≠ [] → rect n (contents t) → Forall2 (arg_row t.*1) args rs →
  ∃ t', add_rows_args ty ps t args = (Ok t', t') ∧ names (contents t') = names (contents t) ∧
    rect (n + length rs) (contents t') ∧ rows none (contents t') = rows none (contents t) ++ rs.
Proof. intros. by apply add_rows_spec. Qed.
Theorem C25_wrong_width :
  ∀ {N A T} `{EqDecision N, EqDecision T} (ty : A → T) ps (t : table N A T) args,
  0 < ps → NoDup t.*1 → Exists (λ a, arg_len a ≠ zlen t) args → ∃ e, add_rows_args ty ps t args = (Err e, t).
Proof. intros. by apply add_rows_rejects. Qed.
Theorem C25_error_keeps_table :
  ∀ {N A T} `{EqDecision N, EqDecision T} (ty : A → T) ps (t : table N A T) args e,
  0 < ps → NoDup t.*1 → (add_rows_args ty ps t args).1 = Err e → (add_rows_args ty ps t args).2 = t.
Proof. intros. by eapply add_rows_raises. Qed.
Theorem C25_keyword_lists_partial :
  ∀ {N A T} `{EqDecision N, EqDecision T} (ty : A → T) (none : A) ps (t : table N A T) n m (kw : list (N * list A)),
  0 < ps → NoDup t.*1 → t ≠ [] → rect n (contents t) → NoDup kw.*1 →
  (∀ k, k ∈ kw.*1 ↔ k ∈ t.*1) → rect m kw →
  ∃ t', add_rows_kwlists ty ps t kw = (Ok t', t') ∧ names (contents t') = names (contents t) ∧
    rows none (contents t') = rows none (contents t) ++
      map (λ i, map (λ k, field none kw k i) (names (contents t))) (seq 0 m).
Proof. intros. by eapply add_rows_kwlists_spec. Qed.
Theorem C25_keywords_refuted :
  (∃ (t : table string Z unit) kw t', zlen kw ≠ zlen t ∧ add_rows_kw one_ty 2 t kw = (Ok t', t') ∧
     rect 1 (contents t) ∧ ¬ ∃ n, rect n (contents t')) ∧
  (∃ (t : table string Z unit) kw e t', add_rows_kw one_ty 2 t kw = (Err e, t') ∧ contents t' ≠ contents t).
Proof. exact add_rows_kw_wrong. Qed.
Example C25_example :
  let t := ztable [("a", [1]); ("b", [2])] in
  contents (add_rows_args one_ty 2 t [RowList [3; 4]; RowDict [("b", 6); ("a", 5)]]).2
  = [("a", [1; 3; 5]); ("b", [2; 4; 6])] ∧
  add_rows_args one_ty 2 t [RowList [3; 4]; RowList [5]] = (Err ValueError, t).
Proof. by vm_compute. Qed.
Print Assumptions C25_add_rows.
Print Assumptions C25_wrong_width.
Print Assumptions C25_error_keeps_table.
Print Assumptions C25_keyword_lists_partial.
Print Assumptions C25_keywords_refuted.

(** ** C26 *)
Theorem C26_stack :
  ∀ {N A T} `{EqDecision N, EqDecision T} (ty : A → T) (none : A) ps (t u : table N A T),
  0 < ps →
  let v := contents t in let w := contents u in
  NoDup t.*1 → NoDup u.*1 → rect (nrows v) v → rect (nrows w) w →
  let s := contents (tbl_stack ty none ps t u) in
  names s = names v ++ filter (λ k, k ∉ names v) (names w) ∧
  rect (nrows v + nrows w) s ∧
  rows none s = map (λ i, map (λ k, field none v k i) (names s)) (seq 0 (nrows v))
             ++ map (λ i, map (λ k, field none w k i) (names s)) (seq 0 (nrows w)).
Proof. intros. by apply stack_spec. Qed.
Example C26_example :
  contents (tbl_stack one_ty 0 2 (ztable [("a", [1; 2]); ("b", [3; 4])]) (ztable [("c", [5]); ("b", [6])]))
  = [("a", [1; 2; 0]); ("b", [3; 4; 6]); ("c", [0; 0; 5])].
Proof. by vm_compute. Qed.
Print Assumptions C26_stack.

(** ** C27 *)
Theorem C27_names_slice :
  ∀ {N A T} `{EqDecision N, EqDecision T} (ty : A → T) ps (t : table N A T) (ns : list N) s,
  0 < ps → NoDup t.*1 → NoDup ns → (∀ n, n ∈ ns → n ∈ t.*1) → 0 < sl_stepv s →
  ∃ t', tbl_getitem ty ps t (map KName ns ++ [KSlice s]) = Ok (SelTable t') ∧
    contents t' = map (λ n, (n, py_getslice (default [] (dget (contents t) n)) s))
                      (match ns with [] => names (contents t) | _ => ns end).
Proof. intros. by apply select_names_slice. Qed.
Theorem C27_names :
  ∀ {N A T} `{EqDecision N, EqDecision T} (ty : A → T) ps (t : table N A T) (ns : list N),
  NoDup ns → (2 <= length ns)%nat → (∀ n, n ∈ ns → n ∈ t.*1) →
  ∃ t', tbl_getitem ty ps t (map KName ns) = Ok (SelTable t') ∧
    contents t' = map (λ n, (n, default [] (dget (contents t) n))) ns.
Proof. exact @select_names. Qed.
Theorem C27_row_partial :
  ∀ {N A T} `{EqDecision N, EqDecision T} (ty : A → T) (none : A) ps (t : table N A T) i n,
  NoDup t.*1 → rect n (contents t) → i ≠ -1 → - Z.of_nat n <= i < Z.of_nat n →
  tbl_getitem ty ps t [KInt i]
  = Ok (SelRow (row none (contents t) (Z.to_nat (if i <? 0 then i + Z.of_nat n else i)))).
Proof. intros. by apply select_int. Qed.
Theorem C27_last_row_refuted :
  ∃ t : table string Z unit, 0 < tbl_len t ∧ tbl_getitem one_ty 2 t [KInt (-1)] = Err IndexError.
Proof. exact select_last_row_wrong. Qed.
(** ... on every table with columns *)
Theorem C27_last_row_always_fails :
  ∀ {N A T} `{EqDecision N, EqDecision T} (ty : A → T) ps (t : table N A T),
  t ≠ [] → tbl_getitem ty ps t [KInt (-1)] = Err IndexError.
Proof. exact @select_minus_one. Qed.
Theorem C27_repeated_name_refuted :
  ∃ (t : table string Z unit) t', tbl_getitem one_ty 2 t [KName "a"; KName "a"] = Ok (SelTable t') ∧
    names (contents t') = ["a"].
Proof. exact select_twice_wrong. Qed.
Example C27_example :
  let t := ztable [("a", [1; 2; 3; 4; 5]); ("b", [6; 7; 8; 9; 10]); ("c", [0; 0; 0; 0; 0])] in
  match tbl_getitem one_ty 2 t [KName "c"; KName "a"; KSlice (Slice (Some 1) None (Some 2))] with
  | Ok (SelTable t') => contents t' = [("c", [0; 0]); ("a", [2; 4])]
  | _ => False
  end ∧
  tbl_getitem one_ty 2 t [KInt (-2)] = Ok (SelRow [4; 9; 0]).
Proof. by vm_compute. Qed.
Print Assumptions C27_names_slice.
Print Assumptions C27_names.
Print Assumptions C27_row_partial.
Print Assumptions C27_last_row_refuted.
Print Assumptions C27_last_row_always_fails.
Print Assumptions C27_repeated_name_refuted.

(** ** C28 *)
Theorem C28_index :
  ∀ {N A T} `{EqDecision N} (none : A) {K} `{EqDecision K} (keyc : A → K) (t : table N A T) (args : list N) n,
  args ≠ [] → (∀ k, k ∈ args → ∃ l, dget (contents t) k = Some l ∧ length l = n) →
  ∃ d, tbl_index keyc t args = Ok d ∧ indexes_exactly d (row_keys none keyc (contents t) args n).
Proof. intros. by apply tbl_index_spec. Qed.
Example C28_example :
  tbl_index (λ z, z) (ztable [("a", [1; 2; 1; 1]); ("b", [3; 3; 3; 4])]) ["b"; "a"]
  = Ok [([3; 1], [0; 2]); ([3; 2], [1]); ([4; 1], [3])].
Proof. by vm_compute. Qed.
Print Assumptions C28_index.

(** ** C29: the seen keys are kept as hashes *)
Theorem C29_unique_index_partial :
  ∀ {N A T} `{EqDecision N} (none : A) {K} `{EqDecision K} (keyc : A → K) (hash : list K → Z)
    (t : table N A T) (args : list N) n,
  args ≠ [] → (∀ k, k ∈ args → ∃ l, dget (contents t) k = Some l ∧ length l = n) →
  let ks := row_keys none keyc (contents t) args n in
  (∀ k1 k2, k1 ∈ ks → k2 ∈ ks → hash k1 = hash k2 → k1 = k2) →
  ∃ ixs, unique_index keyc hash t args = Ok ixs ∧ first_occurrences ks ixs.
Proof. intros. by apply unique_index_spec. Qed.
Theorem C29_collision_refuted :
  ∃ t : table string Z unit, NoDup t.*1 ∧ rect 2 (contents t) ∧
    unique_index (λ z, z) ints_hash t ["a"] = Ok [0] ∧
    ¬ first_occurrences (row_keys 0 (λ z, z) (contents t) ["a"] 2) [0].
Proof. exact unique_collision_wrong. Qed.
Example C29_example :
  unique_index (λ z, z) ints_hash (ztable [("a", [1; 2; 1; 1]); ("b", [3; 3; 3; 4])]) ["b"; "a"] = Ok [0; 1; 3].
Proof. by vm_compute. Qed.
Print Assumptions C29_unique_index_partial.
Print Assumptions C29_collision_refuted.
