(** Filling missing values of a list.  Knows nothing of tablite. *)
From Verif.Spec Require Export Base.

Section impute.
  Context {A : Type} (missing : A → bool).

  Definition known (xs : list A) : list A := filter (λ x, missing x = false) xs.
  (** the known value closest before position [i] *)
  Definition previous (xs : list A) (i : nat) : option A := list.last (known (take i xs)).
  (** [ys] is [xs] with every missing value replaced by the closest known one before it, [none]
      if there is none *)
  Definition carried (none : A) (xs ys : list A) : Prop :=
    length ys = length xs ∧
    ∀ i x, xs !! i = Some x → ys !! i = Some (if missing x then default none (previous xs i) else x).

  (** [ys] is [xs] with every missing value replaced by [v] *)
  Definition filled_with (v : A) (xs : list A) : list A := map (λ x, if missing x then v else x) xs.

  (** [ys] is [xs] where some missing values are replaced by known values of [xs] *)
  Definition filled_from (xs ys : list A) : Prop :=
    Forall2 (λ x y, y = x ∨ missing x = true ∧ y ∈ known xs) xs ys.
End impute.
