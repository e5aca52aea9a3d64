(** Two columns merged into one: where the criterion holds the value of the first, else that of the
    second.  This file knows nothing of tablite. *)
From stdpp Require Import strings.
From Verif.Spec Require Export Rows.

Section merge.
  Context {A : Type}.
  Definition choose (criteria : list bool) (l r : list A) : list A :=
    zip_with (λ (b : bool) (p : A * A), if b then p.1 else p.2) criteria (zip l r).
  (** the table with the column [new], at its place if there is one of this name and else at the end,
      and without the two others *)
  Definition merged (v : view (N := string) (A := A)) (left right new : string) (values : list A) : view (N := string) (A := A) :=
    filter (λ c, c.1 = new ∨ c.1 ≠ left ∧ c.1 ≠ right)
      (if decide (new ∈ names v) then map (λ c, if decide (c.1 = new) then (new, values) else c) v else v ++ [(new, values)]).
End merge.

Example merged_test :
  merged [("a", [1; 2]); ("b", [3; 4]); ("c", [5; 6])]%string "a" "b" "b" (choose [true; false] [1; 2] [3; 4])
  = [("b", [1; 4]); ("c", [5; 6])]%string.
Proof. vm_compute. done. Qed.
