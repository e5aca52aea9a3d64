(** C95, C96: filters given as dictionaries.

    [says], [fits], [mentions], [row_holds], [spelled], [python_test], [alike] are in Spec/FilterDict.v,
    [rows], [rect], [names] in Spec/Rows.v, [selected] in Spec/Filter.v.  The native comparison [nim_cmp]
    is described by C38. *)
From Coq Require Import String.
From Verif.Spec Require Import FilterDict.
From Verif.Model Require Import FilterDict.
From Verif.Proof Require Import FilterDictProofs FilterObsolete.
Local Open Scope string_scope.
Local Open Scope list_scope.
Local Open Scope Z_scope.

(** Prices and limits of things, in pages of two rows *)
Definition things : list (string * column pyval unit) :=
  [("price", map (new_page (λ _, ())) [[VInt 3; VFloat (ratio 5 2)]; [VInt 7; VNone]]);
   ("limit", map (new_page (λ _, ())) [[VInt 4; VInt 2; VInt 7]; [VInt 1]])].
Definition dicts : list dict :=
  [[("column1", VStr "price"); ("criteria", VStr "<="); ("column2", VStr "limit")];
   [("criteria", VStr "<"); ("column2", VStr "limit"); ("value1", VInt 4)]].
Definition clauses : list clause := [(Column "price", RLe, Column "limit"); (Value (VInt 4), RLt, Column "limit")].

(** ** C95
    Full statement: every list of dictionaries which say something about existing columns and native
    values divides the rows.  False: the call fails if no column is named at all. *)
Theorem C95_filter_refuted : ¬ ∀ (t : list (string * column pyval unit)) ds cs n,
  rect n (contents t) → Forall2 says ds cs → Forall (fits t.*1) cs →
  ∃ p f, dict_filter (λ _, ()) 2 (λ _, "") t ds "all" = Ok (p, f).
Proof.
  intros H. destruct (H things [[("value1", VInt 1); ("criteria", VStr "=="); ("value2", VInt 1)]]
    [(Value (VInt 1), REq, Value (VInt 1))] 4%nat) as (p & f & E); [repeat constructor| | |by vm_compute in E].
  - constructor; [apply perm_swap|constructor].
  - repeat constructor; done.
Qed.
(** Missing: lists of dictionaries that name no column. *)
Theorem C95_filter_partial {T} `{EqDecision T} (ty : pyval → T) ps repr (t : list (string * column pyval T)) ds cs name every n :
  0 < ps → rect n (contents t) → Forall2 says ds cs → Forall (fits t.*1) cs → (∃ m, mentions cs m) →
  spelled name (quantifier every) →
  let v := contents t in
  let passes := row_holds (λ r, nim_cmp repr (method r)) v every cs in
  ∃ p f, dict_filter ty ps repr t ds name = Ok (p, f) ∧
    names (contents p) = names v ∧ names (contents f) = names v ∧
    rows VNone (contents p) = selected VNone v passes n ∧
    rows VNone (contents f) = selected VNone v (λ i, negb (passes i)) n.
Proof. exact (native_spec ty ps repr t ds cs name every n). Qed.
(** Nothing else is accepted: dictionaries that say nothing, unknown columns, values that are not native. *)
Theorem C95_accepted {T} `{EqDecision T} (ty : pyval → T) ps repr (t : list (string * column pyval T)) ds name n :
  0 < ps → rect n (contents t) → (0 < n)%nat → t ≠ [] → ds ≠ [] → Forall (λ d, NoDup d.*1) ds →
  (∃ r, dict_filter ty ps repr t ds name = Ok r) ↔
  ∃ every cs, spelled name (quantifier every) ∧ Forall2 says ds cs ∧ Forall (fits t.*1) cs ∧ ∃ m, mentions cs m.
Proof. exact (native_accepts ty ps repr t ds name n). Qed.
(** Without a dictionary all rows pass, and the other table has no columns; also for "any". *)
Theorem C95_no_dictionary {T} `{EqDecision T} (ty : pyval → T) ps repr (t : list (string * column pyval T)) name every :
  tbl_len t ≠ 0 → spelled name (quantifier every) → dict_filter ty ps repr t [] name = Ok (t, []).
Proof. exact (native_no_dictionary ty ps repr t name every). Qed.
Theorem C95_part_of a b : part_of a b = true ↔ ∃ l r, b = l +:+ a +:+ r.
Proof. exact (part_of_spec a b). Qed.
Example C95_example :
  rect 4 (contents things) ∧ Forall2 says dicts clauses ∧ Forall (fits things.*1) clauses ∧ (∃ m, mentions clauses m) ∧
  Forall (λ d : dict, NoDup d.*1) dicts ∧ spelled "ANY" (quantifier false) ∧
  res_map (λ r, (rows VNone (contents r.1), rows VNone (contents r.2))) (dict_filter (λ _, ()) 2 (λ _, "") things dicts "ANY")
    = Ok ([[VInt 3; VInt 4]; [VInt 7; VInt 7]], [[VFloat (ratio 5 2); VInt 2]; [VNone; VInt 1]]) ∧
  dict_filter (λ _, ()) 2 (λ _, "") things [[("column1", VStr "cost"); ("criteria", VStr "<="); ("column2", VStr "limit")]] "all"
    = Err ValueError.
Proof.
  split; [repeat constructor|]. split.
  { constructor; [apply perm_swap|]. constructor; [|constructor]. apply perm_skip, perm_swap. }
  split; [repeat constructor; cbn; set_solver by lia|].
  split. { exists "price". exists (Column "price", RLe, Column "limit"). split; by left. }
  split; [repeat constructor; cbn; set_solver|].
  split; [repeat constructor; by right|]. by vm_compute.
Qed.
Print Assumptions C95_filter_refuted.
Print Assumptions C95_filter_partial.
Print Assumptions C95_accepted.
Print Assumptions C95_no_dictionary.
Print Assumptions C95_part_of.

(** ** C96 [filter_non_primitive]
    The rows are divided by Python's comparisons; columns need not be named. *)
Theorem C96_filter {T} `{EqDecision T} (ty : pyval → T) ps str (t : list (string * column pyval T)) ds cs every n :
  0 < ps → rect n (contents t) → t ≠ [] → Forall2 says ds cs →
  Forall (λ c, in_columns t.*1 c.1.1 ∧ in_columns t.*1 c.2) cs →
  let v := contents t in
  let passes := row_holds (python_test str) v every cs in
  ∃ p f, filter_non_primitive ty ps str t ds (quantifier every) = Ok (p, f) ∧
    names (contents p) = names v ∧ names (contents f) = names v ∧
    rows VNone (contents p) = selected VNone v passes n ∧
    rows VNone (contents f) = selected VNone v (λ i, negb (passes i)) n.
Proof. intros Hps. exact (obsolete_spec ty ps str Hps t ds cs every n). Qed.
(** Full statement: it divides the rows as [filter] does.  False: a number is different from a text only
    for Python; True is 1 only for Python; a date is the midnight of its day only for nimlite. *)
Theorem C96_agree_refuted : ¬ ∀ (t : list (string * column pyval unit)) ds cs n p f q g,
  rect n (contents t) → Forall2 says ds cs → Forall (fits t.*1) cs → (∃ m, mentions cs m) →
  dict_filter (λ _, ()) 2 (λ _, "") t ds "all" = Ok (p, f) →
  filter_non_primitive (λ _, ()) 2 (λ _, "") t ds "all" = Ok (q, g) →
  rows VNone (contents p) = rows VNone (contents q).
Proof.
  intros H.
  specialize (H [("a", [new_page (λ _, ()) [VInt 1; VNone]])] [[("column1", VStr "a"); ("criteria", VStr "!="); ("value2", VStr "x")]]
    [(Column "a", RNe, Value (VStr "x"))] 2%nat _ _ _ _ ltac:(repeat constructor)
    ltac:(constructor; [apply perm_swap|constructor]) ltac:(repeat constructor; cbn; set_solver)
    ltac:(exists "a"; exists (Column "a", RNe, Value (VStr "x")); split; by left) eq_refl eq_refl).
  by vm_compute in H.
Qed.
(** Missing: values about which the comparisons differ ([alike]). *)
Theorem C96_agree_partial {T} `{EqDecision T} (ty : pyval → T) ps repr str (t : list (string * column pyval T)) ds cs every n :
  0 < ps → rect n (contents t) → Forall2 says ds cs → Forall (fits t.*1) cs → (∃ m, mentions cs m) →
  (∀ i c, (i < n)%nat → c ∈ cs → alike repr str c.1.2 (side_value (contents t) i c.1.1) (side_value (contents t) i c.2)) →
  ∃ p f q g, dict_filter ty ps repr t ds (quantifier every) = Ok (p, f) ∧
    filter_non_primitive ty ps str t ds (quantifier every) = Ok (q, g) ∧
    names (contents p) = names (contents q) ∧ names (contents f) = names (contents g) ∧
    rows VNone (contents p) = rows VNone (contents q) ∧ rows VNone (contents f) = rows VNone (contents g).
Proof. exact (filters_agree ty ps repr str t ds cs every n). Qed.
Example C96_agree_example :
  ∀ i c, (i < 4)%nat → c ∈ clauses →
    alike (λ _, "") (λ _, "") c.1.2 (side_value (contents things) i c.1.1) (side_value (contents things) i c.2).
Proof.
  intros i c Hi Hc. unfold clauses in Hc. apply elem_of_cons in Hc as [->|[->|[]%elem_of_nil]%elem_of_cons];
    (do 4 (destruct i as [|i]; [cbn; split; [done|]; split; [done|]; rewrite ?elem_of_cons; naive_solver|])); lia.
Qed.
(** A name that is no column raises, for all dictionaries that have a criterion. *)
Theorem C96_unknown {T} `{EqDecision T} (ty : pyval → T) ps str (t : list (string * column pyval T)) ds every d k c :
  tbl_len t ≠ 0 → Forall (λ d, dget d "criteria" ≠ None) ds →
  d ∈ ds → k = "column1" ∨ k = "column2" → dget d k = Some c → c ≠ VNone → (∀ m, c = VStr m → m ∉ t.*1) →
  filter_non_primitive ty ps str t ds (quantifier every) = Err ValueError.
Proof. exact (obsolete_unknown ty ps str t ds every d k c). Qed.
Example C96_unknown_example :
  map (λ c, filter_non_primitive (λ _, ()) 2 (λ _, "") things (dicts ++ [[("column1", c); ("criteria", VStr "<="); ("value2", VInt 3)]]) "all")
    [VStr "cost"; VInt 1] = [Err ValueError; Err ValueError] ∧
  tbl_len things ≠ 0 ∧ "cost" ∉ things.*1.
Proof. split; [by vm_compute|]. split; [done|]. cbn. set_solver. Qed.
Print Assumptions C96_unknown.
(** A word other than all and any raises. *)
Theorem C96_word {T} `{EqDecision T} (ty : pyval → T) ps str (t : list (string * column pyval T)) ds word :
  tbl_len t ≠ 0 → word ≠ "all" → word ≠ "any" → filter_non_primitive ty ps str t ds word = Err ValueError.
Proof. exact (obsolete_word ty ps str t ds word). Qed.
Example C96_word_example : filter_non_primitive (λ _, ()) 2 (λ _, "") things dicts "none" = Err ValueError ∧ tbl_len things ≠ 0.
Proof. by vm_compute. Qed.
Print Assumptions C96_word.
(** Full statement: it accepts only dictionaries that say something.  False: a column and the value None
    on the left side are accepted, and the right side is then None. *)
Theorem C96_accepted_refuted : ¬ ∀ (t : list (string * column pyval unit)) d r n,
  rect n (contents t) → NoDup d.*1 → filter_non_primitive (λ _, ()) 2 (λ _, "") t [d] "all" = Ok r → ∃ c, says d c.
Proof.
  intros H. destruct (H things [("column1", VStr "price"); ("criteria", VStr "=="); ("value1", VNone)] _ 4%nat
    ltac:(repeat constructor) ltac:(repeat constructor; cbn; set_solver) eq_refl) as [c Hc].
  unfold says in Hc. apply (fmap_Permutation fst) in Hc. cbn in Hc.
  assert ((right_entry c.2).1 ∈ ["column1"; "criteria"; "value1"]) as He.
  { rewrite Hc. by do 2 right; left. }
  destruct c as [l [m|v]]; cbn in He; set_solver.
Qed.
Print Assumptions C96_filter.
Print Assumptions C96_agree_refuted.
Print Assumptions C96_agree_partial.
Print Assumptions C96_accepted_refuted.
