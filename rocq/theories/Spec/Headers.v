(** Separators of a text and its lines.  Knows nothing of tablite. *)
From Verif.Spec Require Export Base PyList Csv.
Local Open Scope Z_scope.

(** how often a character appears *)
Definition occurrences (c : chr) (s : list chr) : Z := zlen (filter (λ x, x = c) s).
(** comma, tab, semicolon, colon, bar *)
Definition separators : list chr := [44; 9; 59; 58; 124].

(** [c] is the separator of [s] that appears most, of several the greatest character *)
Definition chief_separator (s : list chr) (c : chr) : Prop :=
  c ∈ separators ∧ c ∈ s ∧
  ∀ x, x ∈ separators → occurrences x s < occurrences c s ∨ occurrences x s = occurrences c s ∧ x <= c.
(** no separator, but a blank, or else a new line *)
Definition blank_separator (s : list chr) (c : chr) : Prop :=
  (∀ x, x ∈ separators → x ∉ s) ∧ (c = 32 ∧ 32 ∈ s ∨ c = 10 ∧ 32 ∉ s ∧ 10 ∈ s).

Example chief_test : chief_separator [97; 44; 98; 59; 99; 44] 44.
Proof.
  split; [left|]. split; [right; left|]. intros x. unfold separators. rewrite !elem_of_cons, elem_of_nil.
  intros [->|[->|[->|[->|[->|[]]]]]]; (left; done) || (right; done).
Qed.
