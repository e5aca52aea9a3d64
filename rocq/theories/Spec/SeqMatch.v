(** Comparing two sequences: the matching blocks of Python's difflib and what a listing of the
    differences has to satisfy. *)
From Verif.Spec Require Export Base.
From stdpp Require Import strings.

(** [SequenceMatcher.get_matching_blocks]: "triples (i, j, n) meaning a[i:i+n] == b[j:j+n],
    monotonically increasing in i and j; the last triple is (len(a), len(b), 0) and the only one with n == 0".  [R]: [==]. *)
Section Blocks.
  Context {X : Type} (R : X → X → Prop) (a b : list X).
  Fixpoint blocks_ok (i j : nat) (l : list (nat * nat * nat)) : Prop :=
    match l with
    | [] => False
    | [(x, y, k)] => x = length a ∧ y = length b ∧ k = 0%nat ∧ (i <= x ∧ j <= y)%nat
    | (x, y, k) :: l =>
        (0 < k ∧ i <= x ∧ j <= y ∧ x + k <= length a ∧ y + k <= length b)%nat ∧
        Forall2 R (take k (drop x a)) (take k (drop y b)) ∧ blocks_ok (x + k) (y + k) l
    end.
End Blocks.

(** A listing of differences has entries with two labels: what the first sequence has there and
    what the second one has. *)
Definition labels : Type := string * string.
Definition only_first : labels := ("+", "-")%string.
Definition only_second : labels := ("-", "+")%string.
Definition both : labels := ("=", "=")%string.
Definition replaced : labels := ("r", "r")%string.

Definition listed {X} (ls : list labels) (out : list (X * labels)) : list X :=
  map fst (filter (λ e : X * labels, e.2 ∈ ls) out).

(** an entry as a row of a table: the labels as values in the last two columns *)
Definition entry_row {A} (text : string → A) (e : list A * labels) : list A := e.1 ++ [text e.2.1; text e.2.2].
