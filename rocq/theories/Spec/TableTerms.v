(** Terms of the statements about tables. *)
From stdpp Require Import strings.
From Verif.Model Require Import Table.
Local Open Scope Z_scope.

(** the row that a row argument stands for *)
Definition arg_row {N A : Type} (ns : list N) (a : row_arg N A) (r : list A) : Prop :=
  match a with
  | RowList l => r = l ∧ length l = length ns
  | RowDict d => NoDup d.*1 ∧ length d = length ns ∧ Forall2 (λ n x, (n, x) ∈ d) ns r
  end.

(** the arguments of a join name columns that exist *)
Definition args_ok {A T : Type} (t u : list (string * column A T)) (lkeys rkeys lc rc : list string) : Prop :=
  length lkeys = length rkeys ∧ (∀ k, k ∈ lkeys → k ∈ t.*1) ∧ (∀ k, k ∈ rkeys → k ∈ u.*1) ∧
  lc ≠ [] ∧ rc ≠ [] ∧ (∀ k, k ∈ lc → k ∈ t.*1) ∧ (∀ k, k ∈ rc → k ∈ u.*1) ∧ NoDup lc.
