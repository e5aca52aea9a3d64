(** Terms of the statements about tables that share columns and pages. *)
From Verif.Model Require Import Heap Imputation.
From Verif.Spec Require Import Impute.
Local Open Scope Z_scope.

Section heap.
  Context {N A T : Type}.
  (** the table that an operation changes or makes *)
  Definition target (o : top N A) : nat :=
    match o with
    | OCol i _ _ | OColAdd i _ _ _ | OSet i _ _ | OSetCol i _ _ _ | ODel i _ | ODelRows i _ | OClear i | OImul i _ | OIadd i _ => i
    | OCopy _ k | OSelect _ _ k | OSlice _ _ _ k => k
    end.
  Definition replaces (o : top N A) : Prop := match o with OCol _ _ (Replace _) => True | _ => False end.

  Section sides.
    Context {G : Type} (g : nat → G).
    (** tables of different sides share no Column object *)
    Definition apart (h : heap N A T) : Prop :=
      ∀ x y n m a, g x ≠ g y → (n, a) ∈ tabs h x → (m, a) ∈ tabs h y → False.
    (** the operation gives a table no Column object of the other side *)
    Definition respects (o : top N A) : Prop :=
      match o with OSetCol i _ j _ => g i = g j | OSelect i _ k => g i = g k | _ => True end.
  End sides.

  (** the pages of a column *)
  Definition pages_of (h : heap N A T) (a : nat) : list (list A) := map hdata (col_at h a).
End heap.
