(** The Python values that occur in table cells, with their equality.
    Nothing here is part of tablite.

    Floats are finite and stand for the rational they denote (no nan, no infinities, no
    negative zero).  Times, datetimes and timedeltas carry no time zone and count
    microseconds: since midnight, since 1970-01-01 00:00 and from zero; dates count days
    since 1970-01-01. *)
From stdpp Require Export strings.
From Verif.Spec Require Export Base.
From Coq Require Export QArith Qcanon.
Local Open Scope Z_scope.

Inductive pyval :=
| VNone
| VBool (b : bool)
| VInt (z : Z)
| VFloat (q : Qc)
| VStr (s : string)
| VBytes (s : string)
| VTime (us : Z)
| VDate (d : Z)
| VDatetime (us : Z)
| VDelta (us : Z).

Global Instance pyval_eq_dec : EqDecision pyval.
Proof. solve_decision. Defined.

(** The number a bool, an int or a float stands for *)
Definition number (v : pyval) : option Qc :=
  match v with
  | VBool b => Some (Qc_of_Z (Z.b2z b))
  | VInt z => Some (Qc_of_Z z)
  | VFloat q => Some q
  | _ => None
  end.

(** The class of a value under Python's [==] (and of [hash]): True, 1 and 1.0 are one
    class, values of other types are only equal to values of the same type. *)
Definition eq_class (v : pyval) : pyval :=
  match number v with Some q => VFloat q | None => v end.

Definition is_text (v : pyval) : bool := match v with VStr _ => true | _ => false end.
Definition is_bytes (v : pyval) : bool := match v with VBytes _ => true | _ => false end.
Definition is_bool (v : pyval) : bool := match v with VBool _ => true | _ => false end.

Definition day_us : Z := 86400 * 1000000.

(** [n / d] as a rational *)
Definition ratio (n d : Z) : Qc := (Qc_of_Z n / Qc_of_Z d)%Qc.

Example eq_class_test :
  eq_class (VBool true) = eq_class (VInt 1) ∧ eq_class (VFloat (ratio 2 2)) = eq_class (VInt 1) ∧
  eq_class (VStr "1") ≠ eq_class (VInt 1) ∧ eq_class (VDate 0) ≠ eq_class (VDatetime 0).
Proof. split; [done|]. split; [|done]. unfold eq_class. simpl. f_equal. by apply Qc_is_canon. Qed.
