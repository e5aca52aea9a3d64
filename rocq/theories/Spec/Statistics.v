(** Statistics of a list of rationals.  Knows nothing of tablite. *)
From Coq Require Export QArith.
From Verif.Spec Require Export Base.
Local Open Scope Q_scope.

Definition qsum (xs : list Q) : Q := fold_right Qplus 0 xs.
Definition qlen (xs : list Q) : Q := inject_Z (Z.of_nat (length xs)).
Definition qmean (xs : list Q) : Q := qsum xs / qlen xs.

(** sample variance *)
Definition qvar (xs : list Q) : Q :=
  qsum (map (λ x, (x - qmean xs) * (x - qmean xs)) xs) / (qlen xs - 1).

(** number of occurrences, up to equality of rationals *)
Definition qcount (x : Q) (xs : list Q) : nat := length (List.filter (Qeq_bool x) xs).

(** [xs] in ascending order *)
Definition qsorted (xs : list Q) : Prop :=
  ∀ i j a b, (i < j)%nat → xs !! i = Some a → xs !! j = Some b → a <= b.

(** [m] is the median of [xs]: the mean of the middle elements of the sorted list *)
Definition is_median (m : Q) (xs : list Q) : Prop :=
  ∃ ys a b, ys ≡ₚ xs ∧ qsorted ys ∧
    ys !! ((length ys - 1) / 2)%nat = Some a ∧ ys !! (length ys / 2)%nat = Some b ∧
    m == (a + b) / 2.
