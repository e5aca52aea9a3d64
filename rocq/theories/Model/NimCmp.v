(** nimlite/pytypes/pycmp.nim: comparing native objects.  [repr] is [toRepr]
    (pyobjs.nim 57-65). *)
From Verif.Spec Require Export PyValue PyList.
From Verif.Model Require Export Filter.
Local Open Scope Z_scope.

(** pyobjs.nim 12-20; bytes and timedeltas have no native form *)
Inductive kind := K_NONETYPE | K_BOOLEAN | K_INT | K_FLOAT | K_STRING | K_DATE | K_TIME | K_DATETIME.
Global Instance kind_eq_dec : EqDecision kind.
Proof. solve_decision. Defined.

Definition kind_of (v : pyval) : option kind :=
  match v with
  | VNone => Some K_NONETYPE
  | VBool _ => Some K_BOOLEAN
  | VInt _ => Some K_INT
  | VFloat _ => Some K_FLOAT
  | VStr _ => Some K_STRING
  | VDate _ => Some K_DATE
  | VTime _ => Some K_TIME
  | VDatetime _ => Some K_DATETIME
  | VBytes _ | VDelta _ => None
  end.

(** what the operators say of two values in the given order *)
Definition ord_test (m : fmethod) (c : comparison) : bool :=
  match m, c with
  | FM_EQ, Eq | FM_NE, Lt | FM_NE, Gt | FM_GT, Gt | FM_GE, Gt | FM_GE, Eq | FM_LT, Lt | FM_LE, Lt | FM_LE, Eq => true
  | _, _ => false
  end.

(** [addSimpleMethod] (33-52) for bool, str and time, [addNumericMethod] (54-103) for int and
    float (the conversion of an int to a float is taken to be exact), [addDateMethod]
    (107-145) for date and datetime (a date is its midnight).  None: values of other kinds. *)
Definition native_order (x y : pyval) : option comparison :=
  match x, y with
  | VBool a, VBool b => Some (Z.b2z a ?= Z.b2z b)
  | VStr a, VStr b => Some (String.compare a b)
  | VTime a, VTime b => Some (a ?= b)
  | VInt a, VInt b => Some (a ?= b)
  | VFloat a, VFloat b => Some (a ?= b)%Qc
  | VInt a, VFloat b => Some (Qc_of_Z a ?= b)%Qc
  | VFloat a, VInt b => Some (a ?= Qc_of_Z b)%Qc
  | VDate a, VDate b => Some (day_us * a ?= day_us * b)
  | VDatetime a, VDatetime b => Some (a ?= b)
  | VDate a, VDatetime b => Some (day_us * a ?= b)
  | VDatetime a, VDate b => Some (a ?= day_us * b)
  | _, _ => None
  end.

(** is [a] a part of [b]? *)
Fixpoint is_part (a b : string) : bool :=
  String.prefix a b || match b with EmptyString => false | String _ b => is_part a b end.

Section cmp.
  Context (repr : pyval → string).

  (** lines 147-179; 181-189 for [in] *)
  Definition nim_cmp (m : fmethod) (x y : pyval) : bool :=
    let same := bool_decide (kind_of x = kind_of y) in
    match m with
    | FM_IN => match x with
               | VNone => same || is_part (repr x) (repr y)
               | _ => is_part (repr x) (repr y)
               end
    | _ =>
        match x with
        | VNone => match m with FM_EQ => same | FM_NE => negb same | _ => false end
        | _ => match native_order x y with Some c => ord_test m c | None => false end
        end
    end.
End cmp.
