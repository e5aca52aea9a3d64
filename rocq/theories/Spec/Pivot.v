(** Unpivoting a row.  Knows nothing of tablite. *)
From stdpp Require Export strings.
From Verif.Spec Require Export Rows.

(** A row with [n] kept values and then the values of [columns] becomes one row per column: the
    kept values, the name of the column, its value. *)
Definition unpivot {A} (name_val : string → A) (n : nat) (columns : list string) (row : list A) : list (list A) :=
  map (λ cv, take n row ++ [name_val cv.1; cv.2]) (zip columns (drop n row)).

Example unpivot_test :
  unpivot (λ s, inl s) 1 ["x"; "y"]%string [inr 1; inr 2; inr 3] =
  [[inr 1; inl "x"%string; inr 2]; [inr 1; inl "y"%string; inr 3]].
Proof. done. Qed.
