(** C113: a table is divided by the value of the expression in every row.

    Full claim: for every expression that reads columns of the table, [filter] divides the rows by its value, each name standing for
    the value of its column in the row.

    The full claim is false: an unread column whose name happens to be a part of the text, as "4" in "A != 4", makes the call fail
    (C113_part_refuted); so do expressions with fewer than two columns (C113_few) and names with commas (C113_comma). *)
From Coq Require Import Ascii String.
From stdpp Require Import strings.
From Verif.Spec Require Import Base.
From Verif.Model Require Import Expressions.
From Verif.Proof Require Import ExpressionsProofs.
Local Open Scope string_scope.
Local Open Scope list_scope.

(** Missing: column names in the text that are no names in Python, fewer than two columns. *)
Theorem C113_rows_partial {A T} `{EqDecision T} (ty : A → T) (none : A) (ps : Z)
    (parses : string → bool) (value : string → (string → option A) → res bool) (t : table string A T) e n passes c d :
  (0 < ps)%Z → NoDup t.*1 → rect n (contents t) → parses e = true → reads_its_names value e →
  Forall (λ c, part_of c e → python_name c) t.*1 →
  c ∈ t.*1 → d ∈ t.*1 → c ≠ d → part_of c e → part_of d e →
  (∀ i, (i < n)%nat → value e (row_values none (contents t) i) = Ok (passes i)) →
  ∃ p q, filter_text ty none ps parses value t e = Ok (p, q) ∧
    names (contents p) = names (contents t) ∧ names (contents q) = names (contents t) ∧
    rows none (contents p) = selected none (contents t) passes n ∧
    rows none (contents q) = selected none (contents t) (λ i, negb (passes i)) n.
Proof. exact (filter_text_ok ty none ps parses value t e n passes c d). Qed.
Print Assumptions C113_rows_partial.

(** ** What the first failing row raises is raised. *)
Theorem C113_raises {A T} `{EqDecision T} (ty : A → T) (none : A) (ps : Z)
    (parses : string → bool) (value : string → (string → option A) → res bool) (t : table string A T) e n i x c d :
  NoDup t.*1 → rect n (contents t) → parses e = true → reads_its_names value e →
  Forall (λ c, part_of c e → python_name c) t.*1 →
  c ∈ t.*1 → d ∈ t.*1 → c ≠ d → part_of c e → part_of d e → (i < n)%nat →
  (∀ j, (j < i)%nat → ∃ b, value e (row_values none (contents t) j) = Ok b) →
  value e (row_values none (contents t) i) = Err x →
  filter_text ty none ps parses value t e = Err x.
Proof. exact (filter_text_raises ty none ps parses value t e n i x c d). Qed.
Print Assumptions C113_raises.

(** A table of 3 rows and the expression "B < A_2": "A" and "A_2" are parts of it; "B < A_2 / 0" fails in the second row *)
Definition xtable : table string Z unit :=
  [("A", col_new (λ _, ()) 2 [1; 2; 3]); ("B", col_new (λ _, ()) 2 [4; 5; 6]); ("A_2", col_new (λ _, ()) 2 [5; 5; 8])]%Z.
Definition xvalue (e : string) (env : string → option Z) : res bool :=
  if decide (e = "B < A_2") then
    match env "B", env "A_2" with Some b, Some a => Ok (b <? a)%Z | _, _ => Err OtherError end
  else if decide (e = "1 / (A_2 - B)") then
    match env "B", env "A_2" with
    | Some b, Some a => if (a =? b)%Z then Err ZeroDivisionError else Ok true | _, _ => Err OtherError
    end
  else Ok true.
Example C113_example :
  NoDup xtable.*1 ∧ rect 3 (contents xtable) ∧ reads_its_names xvalue "B < A_2" ∧ reads_its_names xvalue "1 / (A_2 - B)" ∧
  Forall python_name xtable.*1 ∧ part_of "B" "B < A_2" ∧ part_of "A_2" "B < A_2" ∧
  res_map (λ r, (rows 0%Z (contents r.1), rows 0%Z (contents r.2)))
    (filter_text (λ _, ()) 0%Z 2 (λ _, true) xvalue xtable "B < A_2") = Ok ([[1; 4; 5]; [3; 6; 8]]%Z, [[2; 5; 5]]%Z) ∧
  filter_text (λ _, ()) 0%Z 2 (λ _, true) xvalue xtable "1 / (A_2 - B)" = Err ZeroDivisionError.
Proof.
  split_and!; try by vm_compute.
  - apply (bool_decide_unpack _). by vm_compute.
  - repeat constructor.
  - intros env env' H. unfold xvalue. rewrite decide_True by done. rewrite (H "B"), (H "A_2"); [done|by exists "B < ", ""|by exists "", " < A_2"].
  - intros env env' H. unfold xvalue. rewrite decide_False, decide_True by done.
    rewrite (H "B"), (H "A_2"); [done|by exists "1 / (", " - B)"|by exists "1 / (A_2 - ", ")"].
  - repeat constructor; by apply identifier_ok.
  - by exists "", " < A_2".
  - by exists "B < ", "".
Qed.

(** ** A column whose name is a part of the text, but no name in Python, whether it is read or not *)
Theorem C113_unreadable {A T} `{EqDecision T} (ty : A → T) (none : A) (ps : Z)
    (parses : string → bool) (value : string → (string → option A) → res bool) (t : table string A T) e c :
  (0 < tbl_len t)%Z → c ∈ t.*1 → part_of c e → ¬ part_of "," c → no_white c → c ≠ "" → ¬ python_name c →
  filter_text ty none ps parses value t e = Err ValueError.
Proof. exact (filter_text_unreadable ty none ps parses value t e c). Qed.
Print Assumptions C113_unreadable.

Definition ytable : table string Z unit := xtable ++ [("4", col_new (λ _, ()) 2 [0; 0; 0])]%Z.
Theorem C113_part_refuted :
  ¬ ∀ (value : string → (string → option Z) → res bool) (t : table string Z unit) e n c d,
    NoDup t.*1 → rect n (contents t) → reads_its_names value e →
    c ∈ t.*1 → d ∈ t.*1 → c ≠ d → part_of c e → part_of d e → python_name c → python_name d →
    (∀ i, (i < n)%nat → ∃ b, value e (row_values 0%Z (contents t) i) = Ok b) →
    ∃ p q, filter_text (λ _, ()) 0%Z 2 (λ _, true) value t e = Ok (p, q).
Proof.
  intros H. destruct (H (λ _ _, Ok true) ytable "A < B and A != 4" 3%nat "A" "B") as (p & q & Hpq); try done.
  - apply (bool_decide_unpack _). by vm_compute.
  - repeat constructor.
  - apply (bool_decide_unpack _). by vm_compute.
  - apply (bool_decide_unpack _). by vm_compute.
  - by exists "", " < B and A != 4".
  - by exists "A < ", " and A != 4".
  - by apply identifier_ok.
  - by apply identifier_ok.
  - intros. by exists true.
Qed.
Print Assumptions C113_part_refuted.

(** ** Fewer than two columns *)
Theorem C113_few {A T} `{EqDecision T} (ty : A → T) (none : A) (ps : Z)
    (parses : string → bool) (value : string → (string → option A) → res bool) (t : table string A T) e :
  (0 < tbl_len t)%Z → NoDup t.*1 → parses e = true → Forall (λ c, part_of c e → python_name c) t.*1 →
  (length (req_columns t.*1 e) <= 1)%nat →
  ∃ x, filter_text ty none ps parses value t e = Err x ∧ x ∈ [IndexError; AttributeError].
Proof. exact (filter_text_few ty none ps parses value t e). Qed.
Print Assumptions C113_few.

(** ** A name with a comma is read as two. *)
Definition ztable : table string Z unit := [("C", col_new (λ _, ()) 2 [1; 2]); ("A, B", col_new (λ _, ()) 2 [4; 5])]%Z.
Theorem C113_comma : ∀ value, filter_text (λ _, ()) 0%Z 2 (λ _, true) value ztable "max(A, B) > C" = Err TypeError.
Proof. intros value. by vm_compute. Qed.
Print Assumptions C113_comma.

(** ** The empty text is a part of every text: without a name at the end there is a value too much, elsewhere a name is missing.  Names that
    differ in blanks are one. *)
Definition named (names : list string) : table string Z unit := map (λ n, (n, col_new (λ _, ()) 2 [4; 5]%Z)) names.
Theorem C113_odd_names : ∀ value,
  filter_text (λ _, ()) 0%Z 2 (λ _, true) value (named ["A"; "B"; ""]) "A < B" = Err TypeError ∧
  filter_text (λ _, ()) 0%Z 2 (λ _, true) value (named ["A"; ""; "B"]) "A < B" = Err ValueError ∧
  filter_text (λ _, ()) 0%Z 2 (λ _, true) value (named ["A"; "A "]) "A < 5" = Err ValueError.
Proof. intros value. split_and!; by vm_compute. Qed.
Print Assumptions C113_odd_names.

(** ** The columns of which values are given: those whose name is a part of the text, in the order of the table *)
Theorem C113_columns : ∀ columns e x, x ∈ req_columns columns e ↔ x ∈ columns ∧ part_of x e.
Proof. exact req_in. Qed.
Print Assumptions C113_columns.
