(** Selecting rows.  Nothing here is part of tablite. *)
From Verif.Spec Require Export Rows.
Local Open Scope Z_scope.

(** The rows of [v] (which has [n] rows) whose number satisfies [P], in order. *)
Definition selected {N A} (none : A) (v : view (N := N) (A := A)) (P : nat → bool) (n : nat) : list (list A) :=
  map (row none v) (filter (λ i, P i = true) (seq 0 n)).

(** All / any of a list of tests *)
Definition all_of (tests : list bool) : bool := forallb id tests.
Definition any_of (tests : list bool) : bool := existsb id tests.

Example selected_test :
  selected 0 [(true, [1; 2; 3]); (false, [4; 5; 6])] (λ i, negb (Nat.eqb i 1)) 3 = [[1; 4]; [3; 6]].
Proof. reflexivity. Qed.
