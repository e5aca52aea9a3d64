(** Terms of the statements about filters. *)
From Verif.Spec Require Import Filter Rows.
From Verif.Model Require Import Filter NimCmp.
Local Open Scope Z_scope.

Section filter.
  Context {N A : Type} `{EqDecision N} (none : A) (cmp : fmethod → A → A → bool).

  (** an operand in row [i] *)
  Definition operand (v : view (N := N) (A := A)) (i : nat) (x : xvalue N A) : A :=
    match x with XCol n => field none v n i | XVal a => a end.
  Definition satisfies (v : view (N := N) (A := A)) (ft : ftype) (xs : list (expression N A)) (i : nat) : bool :=
    let tests := map (λ x, cmp x.1.2 (operand v i x.1.1) (operand v i x.2)) xs in
    match ft with FT_ALL => all_of tests | FT_ANY => any_of tests end.

  (** the columns named by the operands of the expressions *)
  Definition uses (xs : list (expression N A)) (n : N) : Prop :=
    ∃ x, x ∈ xs ∧ (x.1.1 = XCol n ∨ x.2 = XCol n).
End filter.

(** masks as tests of the row number *)
Definition tests (n : nat) (P : nat → bool) : list bool := map P (seq 0 n).

(** the two values can be compared by the native code *)
Definition comparable (x y : pyval) : Prop := x = VNone ∨ is_Some (native_order x y).
