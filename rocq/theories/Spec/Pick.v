(** Taking elements of a list by position. *)
From stdpp Require Import list.
From Coq Require Import ZArith.
Local Open Scope Z_scope.

(** [x] stands at position [i] of [l], counted from 0 *)
Definition at_position {A} (l : list A) (i : Z) (x : A) : Prop := 0 <= i ∧ l !! Z.to_nat i = Some x.

(** [l'] consists of the elements at the positions [idx], in this order *)
Definition picks {A} (l : list A) (idx : list Z) (l' : list A) : Prop := Forall2 (at_position l) idx l'.

(** the elements beside which the mask says [b]; the mask may end before the list *)
Inductive masked {A} (b : bool) : list bool → list A → list A → Prop :=
| masked_end l : masked b [] l []
| masked_in m x l l' : masked b m l l' → masked b (b :: m) (x :: l) (x :: l')
| masked_out m x l l' : masked b m l l' → masked b (negb b :: m) (x :: l) l'.
