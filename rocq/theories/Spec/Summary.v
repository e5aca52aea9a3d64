(** Quartiles and values of the types which [Column.statistics] knows.  Knows nothing of tablite. *)
From Verif.Spec Require Export Base PyList Calendar.
From Coq Require Export QArith.
From Verif.Spec Require Import Statistics.
Local Open Scope Z_scope.

(** how many are less, how many greater than [v] *)
Definition below (v : Q) (xs : list Q) : Z := zlen (List.filter (λ x, negb (Qle_bool v x)) xs).
Definition above (v : Q) (xs : list Q) : Z := zlen (List.filter (λ x, negb (Qle_bool x v)) xs).
(** [v] is a [k]-th quartile of [xs]: at most [k] quarters are less, at most [4 - k] quarters greater *)
Definition quartile (k : Z) (v : Q) (xs : list Q) : Prop :=
  4 * below v xs <= k * zlen xs ∧ 4 * above v xs <= (4 - k) * zlen xs.

Example quartile_test : quartile 1 2 [1; 2; 3; 4; 5; 6]%Q ∧ ¬ quartile 1 3 [1; 2; 3; 4; 5; 6]%Q.
Proof. split; [done|]. by intros [H _]. Qed.

(** median, mean, standard deviation, sum, quartiles and their distance of [xs]; [root] is the square root *)
Definition figures (root : Q → Q) (xs : list Q) (md me sd sm lo hi iq : Q) : Prop :=
  is_median md xs ∧ (me == qmean xs)%Q ∧ (∃ w, sd = root w ∧ (w == if (1 <? length xs)%nat then qvar xs else 0)%Q) ∧ (sm == qsum xs)%Q ∧
  quartile 1 lo xs ∧ quartile 3 hi xs ∧ (iq == hi - lo)%Q ∧ (0 <= iq)%Q.

(** a time of the day and a timedelta in microseconds; [OtherV] is any other object *)
Inductive value :=
| NoneV | BoolV (b : bool) | IntV (n : Z) | FloatV (x : Q) | StrV (s : list Z) | DateV (d : ymd)
| DateTimeV (d : ymd) (us : Z) | TimeV (us : Z) | DeltaV (us : Z) | OtherV (n : Z).
Inductive vtype := NoneT | BoolT | IntT | FloatT | StrT | DateT | DateTimeT | TimeT | DeltaT | OtherT.
Global Instance vtype_eq_dec : EqDecision vtype.
Proof. solve_decision. Defined.
Definition vtype_of (v : value) : vtype :=
  match v with
  | NoneV => NoneT | BoolV _ => BoolT | IntV _ => IntT | FloatV _ => FloatT | StrV _ => StrT | DateV _ => DateT
  | DateTimeV _ _ => DateTimeT | TimeV _ => TimeT | DeltaV _ => DeltaT | OtherV _ => OtherT
  end.

(** the values of a histogram *)
Definition spelled {A} (h : list (A * Z)) : list A := concat (map (λ e, replicate (Z.to_nat e.2) e.1) h).
(** [v] is a value of the histogram, none is more frequent *)
Definition most_frequent {A} (v : A) (h : list (A * Z)) : Prop :=
  ∃ c, (v, c) ∈ h ∧ ∀ x n, (x, n) ∈ h → n <= c.
(** how often values of a type appear *)
Definition type_count (t : vtype) (h : list (value * Z)) : Z :=
  fold_right Z.add 0 (map snd (filter (λ e, vtype_of e.1 = t) h)).

(** the number that stands for a number, a boolean or the length of a text *)
Definition measure (v : value) : Q :=
  match v with
  | BoolV b => if b then 1 else 0
  | IntV n => inject_Z n
  | FloatV x => x
  | StrV s => inject_Z (zlen s)
  | _ => 0
  end.
(** a histogram of one type, whose counts are positive *)
Definition column_of (t : vtype) (h : list (value * Z)) : Prop := h ≠ [] ∧ Forall (λ e, 0 < e.2 ∧ vtype_of e.1 = t) h.
(** the number that stands for a moment, given the POSIX timestamps, or for a time of the day in whole seconds *)
Definition moment_number (stamp : ymd → Z → Q) (v : value) : Q :=
  match v with
  | DateV d => stamp d 0
  | DateTimeV d us => stamp d us
  | TimeV us => inject_Z (us / 1000000)
  | _ => 0
  end.
