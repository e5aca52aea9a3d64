(** C103: what a table looks like in a sheet.  Nothing of the writer. *)
From Verif.Spec Require Export Rows SheetCells.
From Verif.Spec Require Export CodecValues.
Local Open Scope Z_scope.

Global Instance cval_eq_dec : EqDecision cval.
Proof.
  assert (EqDecision Qc) by exact Qc_eq_dec. assert (EqDecision fval) by solve_decision.
  assert (EqDecision ymd) by solve_decision. assert (EqDecision tod) by solve_decision. solve_decision.
Defined.

(** the values of a column, with None for the rows that it does not have *)
Definition lengthened (n : nat) (l : list cval) : list cval := l ++ replicate (n - length l) CNone.

(** numbers that a sheet of the older formats is trusted with: up to 4294967295 either way; nan too *)
Definition moderate (v : cval) : Prop :=
  match v with
  | CInt z => -4294967295 <= z <= 4294967295
  | CFloat (Fin q) => (inject_Z (-4294967295) <= this q)%Q ∧ (this q <= inject_Z 4294967295)%Q
  | CFloat PosInf | CFloat NegInf => False
  | _ => True
  end.
(** the values that are written as they are *)
Definition written_plain (v : cval) : Prop :=
  match v with CNone | CStr _ => True | CInt _ | CFloat _ => moderate v | _ => False end.
