(** C37-C39, C68: selecting rows.

    [selected], [all_of], [any_of] are in Spec/Filter.v, [rows], [row], [field], [rect] in
    Spec/Rows.v.  [operand v i x] is the named column's value in row [i] or the literal. *)
From Verif.Spec Require Import Filter PyValue.
From Verif.Model Require Import Filter Redux NimCmp.
From Verif.Proof Require Import FilterProofs ReduxProofs.
Local Open Scope Z_scope.

(** ** C37
    [cmp] is the meaning of the operators, [uses xs m]: some expression names column [m]. *)
Theorem C37_filter {N A T} `{EqDecision N, EqDecision T} (ty : A → T) (none : A) (ps : Z)
    (cmp : fmethod → A → A → bool) (t : list (N * column A T)) (xs : list (expression N A)) ft n :
  0 < ps → rect n (contents t) →
  (∃ m, uses xs m) → (∀ m, uses xs m → m ∈ t.*1) →
  let v := contents t in
  let satisfied i :=
    let tests := map (λ x, cmp x.1.2 (operand none v i x.1.1) (operand none v i x.2)) xs in
    match ft with FT_ALL => all_of tests | FT_ANY => any_of tests end in
  ∃ p f, tbl_filter ty ps cmp t xs ft = Ok (p, f) ∧
    names (contents p) = names v ∧ names (contents f) = names v ∧
    rows none (contents p) = selected none v satisfied n ∧
    rows none (contents f) = selected none v (λ i, negb (satisfied i)) n.
Proof. exact (filter_spec ty none ps cmp t xs ft n). Qed.

(** An unknown column is a ValueError. *)
Theorem C37_unknown {N A T} `{EqDecision N, EqDecision T} (ty : A → T) (ps : Z)
    (cmp : fmethod → A → A → bool) (t : list (N * column A T)) (xs : list (expression N A)) ft n m :
  rect n (contents t) → (0 < n)%nat → uses xs m → m ∉ t.*1 → t ≠ [] →
  tbl_filter ty ps cmp t xs ft = Err ValueError.
Proof. exact (filter_unknown ty ps cmp t xs ft n m). Qed.

(** a table with unequal page layouts, filtered with pages of 2 rows *)
Definition zcmp (m : fmethod) (x y : Z) : bool := ord_test m (x ?= y).
Definition ftable : list (bool * column Z unit) :=
  [(true, map (new_page (λ _, ())) [[1; 2; 3]; []; [4; 5]]);
   (false, map (new_page (λ _, ())) [[5]; [1; 3; 2; 5]])].
Definition fexprs : list (expression bool Z) := [(XCol true, FM_GT, XVal 1); (XCol false, FM_LE, XCol true)].
Example C37_example :
  rect 5 (contents ftable) ∧ (∃ m, uses fexprs m) ∧ (∀ m, uses fexprs m → m ∈ ftable.*1) ∧
  match tbl_filter (λ _, ()) 2 zcmp ftable fexprs FT_ALL with
  | Ok (p, f) => rows 0 (contents p) = [[2; 1]; [3; 3]; [4; 2]; [5; 5]] ∧ rows 0 (contents f) = [[1; 5]]
  | Err _ => False
  end.
Proof.
  split_and!; [repeat constructor| |by intros [] _; set_solver|by vm_compute].
  exists true. exists (XCol true, FM_GT, XVal 1). split; [by left|by left].
Qed.
Print Assumptions C37_filter.
Print Assumptions C37_unknown.

(** ** C38
    Full statement: for all native values exactly one of [==] and [!=] holds.  False: for
    values of different types neither does. *)
Theorem C38_eq_ne_refuted : ¬ ∀ repr x y, is_Some (kind_of x) → is_Some (kind_of y) →
  nim_cmp repr FM_NE x y = negb (nim_cmp repr FM_EQ x y).
Proof. intros H. by specialize (H (λ _, "") (VInt 1) (VStr "a") (ltac:(done)) (ltac:(done))). Qed.

(** Proved: never both; exactly one if the left value is None or the types are the same, both
    numbers or both dates; neither in all other cases.  ([comparable] is characterised by
    [C38_comparable].) *)
Theorem C38_eq_ne_partial repr x y :
  nim_cmp repr FM_EQ x y && nim_cmp repr FM_NE x y = false ∧
  (comparable x y → nim_cmp repr FM_NE x y = negb (nim_cmp repr FM_EQ x y)) ∧
  (¬ comparable x y → nim_cmp repr FM_EQ x y = false ∧ nim_cmp repr FM_NE x y = false).
Proof. exact (conj (not_both_eq_ne repr x y) (conj (ne_not_eq repr x y) (neither repr x y))). Qed.
Theorem C38_comparable x y kx ky : kind_of x = Some kx → kind_of y = Some ky →
  comparable x y ↔ x = VNone ∨ kx = ky ∨
    (kx ∈ [K_INT; K_FLOAT] ∧ ky ∈ [K_INT; K_FLOAT]) ∨ (kx ∈ [K_DATE; K_DATETIME] ∧ ky ∈ [K_DATE; K_DATETIME]).
Proof. exact (comparable_kinds x y kx ky). Qed.

(** The second half of the claim, for all values. *)
Theorem C38_order repr x y :
  nim_cmp repr FM_LT x y && nim_cmp repr FM_GE x y = false ∧
  nim_cmp repr FM_GT x y && nim_cmp repr FM_LE x y = false.
Proof. exact (conj (not_both_lt_ge repr x y) (not_both_gt_le repr x y)). Qed.
Theorem C38_order_comparable repr x y : comparable x y → x ≠ VNone →
  nim_cmp repr FM_GE x y = negb (nim_cmp repr FM_LT x y) ∧ nim_cmp repr FM_LE x y = negb (nim_cmp repr FM_GT x y) ∧
  nim_cmp repr FM_LE x y = nim_cmp repr FM_LT x y || nim_cmp repr FM_EQ x y.
Proof. exact (lt_ge_exactly repr x y). Qed.
(** Among values of one type [==] is equality. *)
Theorem C38_equality repr x y k : kind_of x = Some k → kind_of y = Some k → nim_cmp repr FM_EQ x y = true ↔ x = y.
Proof. exact (eq_same_type repr x y k). Qed.

Example C38_example :
  comparable (VInt 3) (VFloat (ratio 5 2)) ∧ comparable (VDate 1) (VDatetime day_us) ∧
  nim_cmp (λ _, "") FM_GT (VInt 3) (VFloat (ratio 5 2)) = true ∧
  nim_cmp (λ _, "") FM_EQ (VDate 1) (VDatetime day_us) = true ∧
  nim_cmp (λ _, "") FM_LT (VStr "ab") (VStr "b") = true ∧
  nim_cmp (λ _, "") FM_NE VNone (VInt 1) = true ∧ nim_cmp (λ _, "") FM_NE (VInt 1) VNone = false.
Proof. split_and!; try done; right; done. Qed.
Print Assumptions C38_eq_ne_refuted.
Print Assumptions C38_eq_ne_partial.
Print Assumptions C38_comparable.
Print Assumptions C38_order.
Print Assumptions C38_order_comparable.
Print Assumptions C38_equality.

(** ** C39 *)
Theorem C39_filter_all {N A T} `{EqDecision N, EqDecision T} (ty : A → T) (none : A) (ps : Z)
    (t : list (N * column A T)) (crits : list (N * (A → bool))) n :
  0 < ps → t ≠ [] → rect n (contents t) → (∀ k f, (k, f) ∈ crits → k ∈ t.*1) →
  ∃ r, filter_all ty ps t crits = Ok r ∧ names (contents r) = names (contents t) ∧
    rows none (contents r) = selected none (contents t) (λ i,
      all_of (map (λ kf, kf.2 (field none (contents t) kf.1 i)) crits)) n.
Proof. intros. by apply filter_all_spec. Qed.
Theorem C39_filter_any {N A T} `{EqDecision N, EqDecision T} (ty : A → T) (none : A) (ps : Z)
    (t : list (N * column A T)) (crits : list (N * (A → bool))) n :
  0 < ps → t ≠ [] → rect n (contents t) → (∀ k f, (k, f) ∈ crits → k ∈ t.*1) →
  ∃ r, filter_any ty ps t crits = Ok r ∧ names (contents r) = names (contents t) ∧
    rows none (contents r) = selected none (contents t) (λ i,
      any_of (map (λ kf, kf.2 (field none (contents t) kf.1 i)) crits)) n.
Proof. intros. by apply filter_any_spec. Qed.
Theorem C39_drop {N A T} `{EqDecision N, EqDecision T} (ty : A → T) (none : A) (ps : Z) (eqb : A → A → bool)
    (t : list (N * column A T)) (args : list A) n :
  0 < ps → t ≠ [] → rect n (contents t) →
  ∃ r, tbl_drop ty ps eqb t args = Ok r ∧ names (contents r) = names (contents t) ∧
    rows none (contents r) =
      selected none (contents t) (λ i, negb (existsb (λ x, existsb (eqb x) args) (row none (contents t) i))) n.
Proof. intros. by apply drop_spec. Qed.
Example C39_example :
  ftable ≠ [] ∧ rect 5 (contents ftable) ∧
  res_map (λ r, rows 0 (contents r)) (filter_all (λ _, ()) 2 ftable [(true, Z.ltb 1); (false, Z.ltb 2)])
    = Ok [[3; 3]; [5; 5]] ∧
  res_map (λ r, rows 0 (contents r)) (filter_any (λ _, ()) 2 ftable [(true, Z.eqb 2); (false, Z.ltb 2)])
    = Ok [[1; 5]; [2; 1]; [3; 3]; [5; 5]] ∧
  res_map (λ r, rows 0 (contents r)) (tbl_drop (λ _, ()) 2 Z.eqb ftable [5; 3]) = Ok [[2; 1]; [4; 2]].
Proof. split_and!; [done|repeat constructor|done..]. Qed.
Print Assumptions C39_filter_all.
Print Assumptions C39_filter_any.
Print Assumptions C39_drop.

(** ** C68
    Full statement: for every expression (a function [f] of the columns that occur in it)
    the rows are divided by its value.  False: with a single column the call fails. *)
Theorem C68_filter_expression_refuted : ¬ ∀ (t : list (bool * column Z unit)) occurs f n,
  NoDup t.*1 → rect n (contents t) → List.filter occurs t.*1 ≠ [] →
  ∃ p q, filter_expr (λ _, ()) 0 2 t occurs f = Ok (p, q).
Proof.
  intros H. destruct (H ftable id (λ _, true) 5%nat) as (p & q & Hpq); [| |done|done].
  - repeat constructor; set_solver.
  - repeat constructor.
Qed.
Theorem C68_one_column {N A T} `{EqDecision N, EqDecision T} (ty : A → T) (none : A) (ps : Z)
    (t : list (N * column A T)) occurs f k :
  List.filter occurs t.*1 = [k] → 0 < tbl_len t → filter_expr ty none ps t occurs f = Err AttributeError.
Proof. exact (filter_expr_one ty none ps t occurs f k). Qed.
(** Missing: expressions in which fewer than two columns occur. *)
Theorem C68_filter_expression_partial {N A T} `{EqDecision N, EqDecision T} (ty : A → T) (none : A) (ps : Z)
    (t : list (N * column A T)) (occurs : N → bool) (f : list A → bool) n :
  0 < ps → NoDup t.*1 → rect n (contents t) → (2 <= length (List.filter occurs t.*1))%nat →
  let passes i := f (map (λ k, field none (contents t) k i) (List.filter occurs t.*1)) in
  ∃ p q, filter_expr ty none ps t occurs f = Ok (p, q) ∧
    names (contents p) = names (contents t) ∧ names (contents q) = names (contents t) ∧
    rows none (contents p) = selected none (contents t) passes n ∧
    rows none (contents q) = selected none (contents t) (λ i, negb (passes i)) n.
Proof. intros Hps. exact (filter_expr_spec ty none ps Hps t occurs f n). Qed.
Example C68_example :
  NoDup ftable.*1 ∧ rect 5 (contents ftable) ∧ (2 <= length (List.filter (λ _, true) ftable.*1))%nat ∧
  res_map (λ r, (rows 0 (contents r.1), rows 0 (contents r.2)))
    (filter_expr (λ _, ()) 0 2 ftable (λ _, true) (λ r, match r with [a; b] => a <=? b | _ => false end))
    = Ok ([[1; 5]; [3; 3]; [5; 5]], [[2; 1]; [4; 2]]).
Proof. split_and!; [repeat constructor; set_solver|repeat constructor|done|done]. Qed.
Print Assumptions C68_filter_expression_refuted.
Print Assumptions C68_one_column.
Print Assumptions C68_filter_expression_partial.
