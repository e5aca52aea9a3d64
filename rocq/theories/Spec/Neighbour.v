(** Nearest neighbours among the rows of a table.  Knows nothing of tablite. *)
From Coq Require Export QArith Qabs.
From Verif.Spec Require Export Base.

Section neighbour.
  (** [before v w]: v comes before w, or is w; [missing]: the values which stand for none *)
  Context {A : Type} `{EqDecision A} (before : A → A → bool) (missing : list A).

  (** how many of the different values of [xs] come before [v], relative to the number of
      different values which are known *)
  Definition rank (xs : list A) (v : A) : nat :=
    length (filter (λ w, before w v = true ∧ w ≠ v) (remove_dups xs)).
  Definition normal (xs : list A) (v : A) : Q :=
    (inject_Z (Z.of_nat (rank xs v)) / inject_Z (Z.of_nat (length (filter (λ w, w ∉ missing) (remove_dups xs)))))%Q.

  (** The distance of row [j] from row [i]: the sum of the differences, over the columns in which
      row [i] has a known value; None (infinite) if row [j] misses one of these. *)
  Definition distance (cols : list (list A)) (i j : nat) : option Q :=
    fold_left (λ d xs,
      match xs !! i, xs !! j with
      | Some v, Some w =>
          if decide (v ∈ missing) then d else
          if decide (w ∈ missing) then None else
          match d with Some d => Some (d + Qabs (normal xs v - normal xs w))%Q | None => None end
      | _, _ => d
      end) cols (Some 0%Q).

  Definition dist_lt (a b : option Q) : Prop :=
    match a, b with Some x, Some y => (x < y)%Q | Some _, None => True | None, _ => False end.
  (** row [j] is nearer to row [i] than row [k], or as near and not after it *)
  Definition prefers (cols : list (list A)) (i j k : nat) : Prop :=
    dist_lt (distance cols i j) (distance cols i k) ∨
    ¬ dist_lt (distance cols i k) (distance cols i j) ∧ (j ≤ k)%nat.

  (** [ys] is [xs] with every missing value replaced by that of the row which is preferred to all
      the rows with a known value; that row's own value is one known in [xs], perhaps filled in
      as well *)
  Definition filled_nearest (cols : list (list A)) (xs ys : list A) : Prop :=
    length ys = length xs ∧
    ∀ i x, xs !! i = Some x →
      if decide (x ∈ missing) then
        ∃ j v, j ≠ i ∧ ys !! i = Some v ∧ ys !! j = Some v ∧ v ∈ xs ∧ v ∉ missing ∧
          ∀ k w, xs !! k = Some w → w ∉ missing → prefers cols i j k
      else ys !! i = Some x.
End neighbour.
