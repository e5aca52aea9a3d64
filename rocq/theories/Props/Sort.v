(** C43, C44: sorting and sort modes.
    Beneath every theorem, its assumptions. *)
From Verif.Spec Require Import SortOrder Rows.
From Verif.Model Require Import Sort.
From Verif.Proof Require Import SortProofs SortRanks SortExamples.
Local Open Scope Z_scope.

(** [mtset] stands for the order in which Python lists a set: any function that lists every
    value of a column once. *)

(** ** C43: full claim: the rows of the result are the rows of the table in the stable
    lexicographic order by the given columns and directions.  True if the columns are
    [sortable] in the mode used (Spec/SortOrder.v); false in each of the cases which that
    excludes, see the refutations. *)
Theorem C43_sort_partial :
  ∀ (coll : string → list Z) (pystr : pyval → string) {T} `{EqDecision T} (ty : pyval → T) (ps : Z)
    (mtset : list pyval → list pyval) (t : table string pyval T) (m : mode) (mapping : list (string * bool)) (n : nat),
  0 < ps → (∀ l, NoDup (mtset l) ∧ ∀ x, x ∈ mtset l ↔ x ∈ l) →
  NoDup t.*1 → rect n (contents t) → t ≠ [] → mapping ≠ [] →
  (∀ key reverse, (key, reverse) ∈ mapping →
    ∃ c, dget t key = Some c ∧ sortable coll pystr m reverse (col_iter c)) →
  ∃ r ixs, sort coll pystr ty ps mtset t m mapping = Ok r ∧
    stable_order n (levels_cmp (map (λ kv : string * bool,
      (dir_cmp kv.2 (mode_cmp coll pystr m), field VNone (contents t) kv.1)) mapping)) ixs ∧
    names (contents r) = names (contents t) ∧ rows VNone (contents r) = map (row VNone (contents t)) ixs.
Proof. intros. by apply sort_spec. Qed.

(** Whatever the mode and the columns: if sorting succeeds, the rows are permuted and rows
    with the same values in all columns sorted by keep their order. *)
Theorem C43_permutation :
  ∀ (coll : string → list Z) (pystr : pyval → string) {T} `{EqDecision T} (ty : pyval → T) (ps : Z)
    (mtset : list pyval → list pyval) (t r : table string pyval T) (m : mode) (mapping : list (string * bool)) (n : nat),
  0 < ps → NoDup t.*1 → rect n (contents t) → t ≠ [] → sort coll pystr ty ps mtset t m mapping = Ok r →
  ∃ ixs, ixs ≡ₚ seq 0 n ∧
    StronglySorted (λ i j, (∀ kv, kv ∈ mapping →
      field VNone (contents t) kv.1 i = field VNone (contents t) kv.1 j) → (i < j)%nat) ixs ∧
    names (contents r) = names (contents t) ∧ rows VNone (contents r) = map (row VNone (contents t)) ixs.
Proof. intros *. intros Hps. by apply (sort_permutation coll pystr ty ps Hps mtset). Qed.

(** [is_sorted] answers whether the table is in that order. *)
Theorem C43_is_sorted_partial :
  ∀ (coll : string → list Z) (pystr : pyval → string) {T}
    (mtset : list pyval → list pyval) (t : table string pyval T) (m : mode) (mapping : list (string * bool)) (n : nat),
  (∀ l, NoDup (mtset l) ∧ ∀ x, x ∈ mtset l ↔ x ∈ l) →
  rect n (contents t) → t ≠ [] → mapping ≠ [] →
  (∀ key reverse, (key, reverse) ∈ mapping →
    ∃ c, dget t key = Some c ∧ sortable coll pystr m reverse (col_iter c)) →
  ∃ b, is_sorted coll pystr mtset t m mapping = Ok b ∧
    (b = true ↔ ∀ i j, (i < j < n)%nat → levels_cmp (map (λ kv : string * bool,
      (dir_cmp kv.2 (mode_cmp coll pystr m), field VNone (contents t) kv.1)) mapping) i j ≠ Gt).
Proof. intros coll pystr T mtset t m mapping n Hm. by apply is_sorted_spec. Qed.

(** Excel order of a column with a number, a time, a date, text, a bool and None. *)
Example C43_example :
  let t := vtable [("a", [VNone; VStr "b"; VInt 3; VBool true; VStr "a"; VTime 43200000000; VDate (-25565)]);
                   ("b", map VInt [1; 2; 3; 4; 5; 6; 7])]%string in
  sortable codes vstr Excel false [VNone; VStr "b"; VInt 3; VBool true; VStr "a"; VTime 43200000000; VDate (-25565)] ∧
  ∃ r, sort codes vstr (λ _, tt) 2 remove_dups t Excel [("a", false)]%string = Ok r ∧
  contents r = [("a", [VTime 43200000000; VDate (-25565); VInt 3; VStr "a"; VStr "b"; VBool true; VNone]);
                ("b", map VInt [6; 7; 3; 5; 2; 4; 1])]%string.
Proof. split; [exact example_sortable|]. eexists. split; by vm_compute. Qed.
(** Two columns, the second one descending. *)
Example C43_example_two :
  let t := vtable [("a", map VInt [2; 1; 2; 1; 2]); ("b", map VStr ["x"; "y"; "z"; "x"; "x"]%string);
                   ("c", map VInt [1; 2; 3; 4; 5])]%string in
  ∃ r, sort codes vstr (λ _, tt) 2 remove_dups t Unix [("a", false); ("b", true)]%string = Ok r ∧
  contents r = [("a", map VInt [1; 1; 2; 2; 2]); ("b", map VStr ["y"; "x"; "z"; "x"; "x"]%string);
                ("c", map VInt [2; 4; 3; 1; 5])]%string.
Proof. eexists. split; by vm_compute. Qed.

(** unix: 1 and 1.0 are tied but get different ranks; a stable order would leave the table
    as it is. *)
Theorem C43_unix_tie_refuted :
  let t := vtable [("a", [VFloat (Qc_of_Z 1); VInt 1; VFloat (Qc_of_Z 1)])]%string in
  ∃ r, sort codes vstr (λ _, tt) 2 remove_dups t Unix [("a", false)]%string = Ok r ∧
  ¬ ∃ ixs, stable_order 3 (levels_cmp [(unix_cmp codes, field VNone (contents t) "a"%string)]) ixs ∧
      rows VNone (contents r) = map (row VNone (contents t)) ixs.
Proof. exact unix_tie. Qed.
(** unix, descending: text stays behind everything else. *)
Theorem C43_unix_descending_refuted :
  let t := vtable [("a", [VInt 1; VStr "x"])]%string in
  ∃ r, sort codes vstr (λ _, tt) 2 remove_dups t Unix [("a", true)]%string = Ok r ∧
  ¬ ∃ ixs, stable_order 2 (levels_cmp [(dir_cmp true (unix_cmp codes), field VNone (contents t) "a"%string)]) ixs ∧
      rows VNone (contents r) = map (row VNone (contents t)) ixs.
Proof. exact unix_descending. Qed.
(** excel: True and 1 share a rank, so that True stays in front of 1. *)
Theorem C43_excel_bool_refuted :
  let t := vtable [("a", [VBool true; VInt 1])]%string in
  ∃ r, sort codes vstr (λ _, tt) 2 remove_dups t Excel [("a", false)]%string = Ok r ∧
  ¬ ∃ ixs, stable_order 2 (levels_cmp [(excel_cmp codes, field VNone (contents t) "a"%string)]) ixs ∧
      rows VNone (contents r) = map (row VNone (contents t)) ixs.
Proof. exact excel_bool. Qed.
(** excel: a date beside the int with its serial number cannot be sorted. *)
Theorem C43_excel_types_refuted :
  sort codes vstr (λ _, tt) 2 remove_dups (vtable [("a", [VInt 0; VDate (-25567)])]%string) Excel [("a", false)]%string
  = Err TypeError.
Proof. by vm_compute. Qed.
(** alphanumeric: 1 beside "1" cannot be sorted. *)
Theorem C43_alphanumeric_refuted :
  sort codes vstr (λ _, tt) 2 remove_dups (vtable [("a", [VInt 1; VStr "1"])]%string) Alphanumeric [("a", false)]%string
  = Err KeyError.
Proof. by vm_compute. Qed.
Print Assumptions C43_sort_partial.
Print Assumptions C43_permutation.
Print Assumptions C43_is_sorted_partial.
Print Assumptions C43_unix_tie_refuted.
Print Assumptions C43_unix_descending_refuted.
Print Assumptions C43_excel_bool_refuted.
Print Assumptions C43_excel_types_refuted.
Print Assumptions C43_alphanumeric_refuted.

(** ** C44: the unix mode ranks every list of None, bools, ints, floats, texts, times, dates,
    datetimes and timedeltas: one rank for each value, none for any other, and two values
    (1, True and 1.0 are three) never share a rank. *)
Theorem C44_unix_rank_partial :
  ∀ (coll : string → list Z) (pystr : pyval → string) (reverse : bool) (values : list pyval),
  (∀ a, a ∈ values → is_bytes a = false) →
  ∃ d, rank coll pystr values reverse Unix = Ok d ∧
    (∀ a, a ∈ values → ∃ r, rank_get Unix d a = Some r ∧ 0 <= r < zlen values) ∧
    (∀ a b r, rank_get Unix d a = Some r → rank_get Unix d b = Some r → a = b) ∧
    (∀ a, a ∉ values → rank_get Unix d a = None).
Proof. intros coll pystr. exact (unix_rank_inj coll). Qed.
(** Full claim: any values.  It has no place for bytes, which tables can hold. *)
Theorem C44_unix_bytes_refuted :
  ∀ (coll : string → list Z) (pystr : pyval → string) (reverse : bool) (values : list pyval),
  (∃ a, a ∈ values ∧ is_bytes a = true) → rank coll pystr values reverse Unix = Err KeyError.
Proof. intros coll pystr. exact (unix_bytes coll). Qed.
(** The ranks order as the mode documents. *)
Theorem C44_rank_order :
  ∀ (coll : string → list Z) (pystr : pyval → string) (m : mode) (reverse : bool) (values : list pyval),
  NoDup values → sortable coll pystr m reverse values →
  ∃ d, rank coll pystr values reverse m = Ok d ∧ ∀ a b, a ∈ values → b ∈ values →
    ∃ ra rb, rank_get m d a = Some ra ∧ rank_get m d b = Some rb ∧
      (ra ?= rb) = dir_cmp reverse (mode_cmp coll pystr m) a b.
Proof. exact rank_spec. Qed.
Example C44_example :
  rank codes vstr [VInt 1; VStr "b"; VBool true; VFloat (Qc_of_Z 1); VNone; VStr "a"; VDelta 1] false Unix
  = Ok [(VNone, 0); (VBool true, 1); (VInt 1, 2); (VFloat (Qc_of_Z 1), 3); (VDelta 1, 4); (VStr "a", 5); (VStr "b", 6)].
Proof. by vm_compute. Qed.
(** The other modes give 1 and True the same rank or lose a value. *)
Theorem C44_excel_refuted :
  ∃ d, rank codes vstr [VInt 1; VBool true] false Excel = Ok d ∧
    rank_get Excel d (VInt 1) = Some 1 ∧ rank_get Excel d (VBool true) = Some 1.
Proof. eexists. split; [by vm_compute|]. split; by vm_compute. Qed.
Theorem C44_alphanumeric_refuted :
  ∃ d, rank codes vstr [VInt 1; VStr "1"] false Alphanumeric = Ok d ∧ rank_get Alphanumeric d (VInt 1) = None.
Proof. eexists. split; by vm_compute. Qed.
Print Assumptions C44_unix_rank_partial.
Print Assumptions C44_unix_bytes_refuted.
Print Assumptions C44_rank_order.
Print Assumptions C44_excel_refuted.
Print Assumptions C44_alphanumeric_refuted.
