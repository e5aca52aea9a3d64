(** Terms of the statements about columns. *)
From Verif.Spec Require Import Counts.
From Verif.Model Require Import Column.
Local Open Scope Z_scope.

Section counter.
  Context {K : Type} `{EqDecision K}.
  Definition cnt (k : K) (ks : list K) : Z := count_if (λ k', k' = k) ks.
  (** what the metadata of a page should be: exact, positive and without duplicates *)
  Definition cdict (d : list (K * Z)) (ks : list K) : Prop :=
    NoDup d.*1 ∧ ∀ k, dget d k = if decide (0 < cnt k ks) then Some (cnt k ks) else None.
End counter.

Section types.
  Context {A T : Type} `{EqDecision T} (ty : A → T).
  (** the counted types are those of the values *)
  Definition page_counted (p : page A T) : Prop := cdict (ptypes p) (map ty (pdata p)).
  Definition types_ok (c : column A T) : Prop := Forall page_counted c.

  (** values that compare equal have the same type *)
  Definition type_faithful {K : Type} (key : A → K) (xs : list A) : Prop :=
    ∀ x y, x ∈ xs → y ∈ xs → key x = key y → ty x = ty y.
End types.
