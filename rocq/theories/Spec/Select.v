(** Splitting rows by whether all their values can be converted.  Knows nothing of tablite. *)
From stdpp Require Import strings pretty.
From Verif.Spec Require Export Base.

(** what a conversion gives *)
Definition ok_of {A} (r : res A) : option A := match r with Ok x => Some x | Err _ => None end.

Section select.
  (** [K]: types of values; [R]: reasons; [none], [estr]: None and the empty text *)
  Context {A K R : Type} `{EqDecision A, EqDecision K} (none estr : A) (kstr : K).
  (** what is wanted of a column: its type, and whether empty values are allowed *)
  Record wish := Wish { w_type : K; w_empty : bool }.
  (** the value as one of the wanted type, if there is one *)
  Context (conv : K → A → option A).
  (** why not: empty text, None, no such value *)
  Context {D : Type} (wish_of : D → wish) (no_text no_none : D → R) (no_value : D → A → R).

  Definition wanted (d : D) (v : A) : A + R :=
    let w := wish_of d in
    if decide (v = none ∨ v = estr) then
      if w_empty w then inl (if decide (w_type w = kstr) then estr else none)
      else inr (if decide (v = none) then no_none d else no_text d)
    else match conv (w_type w) v with Some x => inl x | None => inr (no_value d v) end.

  (** [vs d]: the values of the column wanted as [d].  Row [i] passes if all its values can be had;
      otherwise the first column that stands in the way gives the reason. *)
  Context (ds : list D) (vs : D → list A).
  Definition cell_wanted (i : nat) (d : D) : option (A + R) := wanted d <$> vs d !! i.
  Definition row_reason (i : nat) : option R :=
    head (omap (λ d, match cell_wanted i d with Some (inr r) => Some r | _ => None end) ds).
  Definition passing (n : nat) : list nat := filter (λ i, row_reason i = None) (seq 0 n).
  Definition failing (n : nat) : list nat := filter (λ i, row_reason i ≠ None) (seq 0 n).
  (** the values of a column wanted, for the rows which pass *)
  Definition passed_values (n : nat) (d : D) : list A :=
    omap (λ i, match cell_wanted i d with Some (inl x) => Some x | _ => None end) (passing n).
  Definition reasons (n : nat) : list R := omap row_reason (failing n).
  (** the values of any column, for the rows which do not *)
  Definition failed_values (n : nat) (xs : list A) : list A := omap (λ i, xs !! i) (failing n).
End select.
Arguments Wish {K} _ _.

(** Names told apart: the k-th repetition of a name gets the number k. *)
Fixpoint told_apart (seen names : list string) : list string :=
  match names with
  | [] => []
  | n :: names =>
      let k := length (filter (λ m, m = n) seen) in
      (if (k =? 0)%nat then n else n +:+ "_" +:+ pretty (N.of_nat k))%string :: told_apart (seen ++ [n]) names
  end.
