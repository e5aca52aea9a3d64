(** Results of Python-level operations: a value or a raised exception. *)
From stdpp Require Export prelude list list_numbers numbers.
From Coq Require Export ZArith Lia.

Inductive exn :=
| IndexError
| ValueError
| KeyError
| TypeError
| AttributeError
| ZeroDivisionError
| UnboundLocalError
| OtherError.

Inductive res (A : Type) :=
| Ok (a : A)
| Err (e : exn).
Arguments Ok {_} _.
Arguments Err {_} _.

Definition res_map {A B} (f : A → B) (r : res A) : res B :=
  match r with Ok a => Ok (f a) | Err e => Err e end.

Definition res_bind {A B} (r : res A) (f : A → res B) : res B :=
  match r with Ok a => f a | Err e => Err e end.

Global Instance exn_eq_dec : EqDecision exn.
Proof. solve_decision. Defined.
