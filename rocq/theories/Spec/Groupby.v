(** What grouping a table gives, and textbook aggregates.  Knows nothing of tablite. *)
From stdpp Require Import strings.
From Verif.Spec Require Export Rows Join PyValue Statistics.
Local Open Scope Z_scope.

Section groups.
  Context {N A : Type} `{EqDecision N, EqDecision A} (none : A).
  Implicit Types v : view (N := N) (A := A).

  (** the values of row [i] in the columns [keys] *)
  Definition key_at v (keys : list N) (i : nat) : list A := map (λ k, field none v k i) keys.

  (** the combinations of values, in the order of their first row *)
  Definition groups v (keys : list N) (n : nat) : list (list A) :=
    distinct (map (key_at v keys) (seq 0 n)).

  (** the values of the column [cn] in the rows of the group [k], in row order *)
  Definition members v (keys : list N) (n : nat) (k : list A) (cn : N) : list A :=
    map (λ i, field none v cn i) (filter (λ i, key_at v keys i = k) (seq 0 n)).
End groups.

(** ints and floats *)
Definition numeral (v : pyval) : option Qc :=
  match v with VInt z => Some (Qc_of_Z z) | VFloat q => Some q | _ => None end.

Definition qprod (xs : list Q) : Q := fold_right Qmult 1%Q xs.

(** [x <= y] for two values of one type *)
Definition at_most (x y : pyval) : Prop :=
  match x, y with
  | VNone, VNone => True
  | VBool a, VBool b => a = true → b = true
  | VInt a, VInt b | VTime a, VTime b | VDate a, VDate b | VDatetime a, VDatetime b => a <= b
  | VFloat a, VFloat b => (a <= b)%Qc
  | VStr a, VStr b => String.compare a b ≠ Gt
  | _, _ => False
  end.

(** the number a value is counted as: an int is the float of the same value, a date is its
    midnight *)
Definition same_as (v : pyval) : pyval :=
  match v with
  | VInt z => VFloat (Qc_of_Z z)
  | VDate d => VDatetime (day_us * d)
  | v => v
  end.

(** no value is more frequent than [m] *)
Definition is_mode (m : pyval) (l : list pyval) : Prop :=
  m ∈ l ∧ ∀ x, (length (filter (λ y, y = x) l) <= length (filter (λ y, y = m) l))%nat.

(** [a] and [b] are the middle elements of [xs] in ascending order: the same one if the number
    of elements is odd.  The median is [(a + b) / 2]. *)
Definition middle_two (xs : list Q) (a b : Q) : Prop :=
  ∃ ys, ys ≡ₚ xs ∧ qsorted ys ∧
    ys !! ((length ys - 1) / 2)%nat = Some a ∧ ys !! (length ys / 2)%nat = Some b.

(** [qs] are the numbers [l] *)
Definition numerals (l : list pyval) (qs : list Qc) : Prop := Forall2 (λ v q, numeral v = Some q) l qs.
