(** Orders on values and on rows, independent of tablite's implementation: the tables in
    the documentation strings of [unix_sort] and [excel_sort], and what a stable sort by
    several columns is. *)
From Verif.Spec Require Export PyValue PyList.
From Coq Require Export Sorted.
Local Open Scope Z_scope.

(** lexicographic combination *)
Definition thenc (c d : comparison) : comparison := match c with Eq => d | _ => c end.

Fixpoint list_cmp (l k : list Z) : comparison :=
  match l, k with
  | [], [] => Eq
  | [], _ => Lt
  | _, [] => Gt
  | x :: l, y :: k => thenc (x ?= y) (list_cmp l k)
  end.

Section orders.
  (** the Unicode collation key of a string and Python's [str] *)
  Context (coll : string → list Z) (pystr : pyval → string).

  (** Two values of one kind: numbers by magnitude, times by microseconds, text by its
      collation key. *)
  Definition natural_cmp (a b : pyval) : comparison :=
    match a, b with
    | VStr s, VStr t => list_cmp (coll s) (coll t)
    | VTime x, VTime y | VDate x, VDate y | VDatetime x, VDatetime y | VDelta x, VDelta y => x ?= y
    | _, _ => match number a, number b with
              | Some x, Some y => Qccompare x y
              | _, _ => Eq
              end
    end.

  (** unix order: None, bools, numbers, times, dates, datetimes, timedeltas, text *)
  Definition unix_class (v : pyval) : nat :=
    match v with
    | VNone => 0 | VBool _ => 1 | VInt _ | VFloat _ => 2 | VTime _ => 3 | VDate _ => 4
    | VDatetime _ => 5 | VDelta _ => 6 | VStr _ => 7 | VBytes _ => 8
    end.
  Definition unix_cmp (a b : pyval) : comparison :=
    thenc (Nat.compare (unix_class a) (unix_class b)) (natural_cmp a b).

  (** excel order: numbers, times, dates, datetimes and timedeltas by their serial number
      (days since 1900-01-01, which is 25567 days before 1970-01-01), then text, bools,
      None *)
  Definition excel_class (v : pyval) : nat :=
    match v with VStr _ => 1 | VBool _ => 2 | VNone => 3 | VBytes _ => 4 | _ => 0 end.
  Definition serial (v : pyval) : Qc :=
    match v with
    | VBool b => Qc_of_Z (Z.b2z b)
    | VInt z => Qc_of_Z z
    | VFloat q => q
    | VTime x | VDelta x => ratio x day_us
    | VDate d => Qc_of_Z (d + 25567)
    | VDatetime x => ratio (x + 25567 * day_us) day_us
    | _ => Qc_of_Z 0
    end.
  Definition excel_cmp (a b : pyval) : comparison :=
    thenc (Nat.compare (excel_class a) (excel_class b))
      (match a, b with
       | VStr s, VStr t => list_cmp (coll s) (coll t)
       | _, _ => Qccompare (serial a) (serial b)
       end).

  (** alphanumeric order *)
  Definition text_cmp (a b : pyval) : comparison := list_cmp (coll (pystr a)) (coll (pystr b)).
End orders.

Inductive mode := Alphanumeric | Unix | Excel.
Definition mode_cmp coll pystr (m : mode) : pyval → pyval → comparison :=
  match m with
  | Alphanumeric => text_cmp coll pystr
  | Unix => unix_cmp coll
  | Excel => excel_cmp coll
  end.

(** descending is the opposite *)
Definition dir_cmp {A} (reverse : bool) (cmp : A → A → comparison) (a b : A) : comparison :=
  if reverse then CompOpp (cmp a b) else cmp a b.

(** Comparing rows [i] and [j] by several columns, the first one first.  A level is the
    comparison to use and the values of the column. *)
Fixpoint levels_cmp {A} (levels : list ((A → A → comparison) * (nat → A))) (i j : nat) : comparison :=
  match levels with
  | [] => Eq
  | (cmp, value) :: levels => thenc (cmp (value i) (value j)) (levels_cmp levels i j)
  end.

(** [ixs] is the order of the [n] rows of a stable sort by [cmp]. *)
Definition stable_order (n : nat) (cmp : nat → nat → comparison) (ixs : list nat) : Prop :=
  ixs ≡ₚ seq 0 n ∧
  StronglySorted (λ i j, cmp i j = Lt ∨ cmp i j = Eq ∧ (i < j)%nat) ixs.

Example levels_test :
  levels_cmp [(Z.compare, λ i, nth i [3; 1; 3] 0); (dir_cmp true Z.compare, λ i, nth i [5; 6; 7] 0)] 0 2 = Gt.
Proof. reflexivity. Qed.
Example stable_order_test :
  stable_order 3 (λ i j, (nth i [3; 1; 3] 0 ?= nth j [3; 1; 3] 0)) [1; 0; 2]%nat.
Proof.
  split; [apply Permutation_swap|].
  repeat match goal with |- StronglySorted _ _ => constructor | |- Forall _ _ => constructor end; simpl; auto.
Qed.

(** ints and floats are one kind, every other type is its own *)
Definition same_kind (a b : pyval) : bool :=
  match a, b with
  | VNone, VNone | VBool _, VBool _ | VInt _, VInt _ | VInt _, VFloat _ | VFloat _, VInt _ | VFloat _, VFloat _
  | VStr _, VStr _ | VBytes _, VBytes _ | VTime _, VTime _ | VDate _, VDate _ | VDatetime _, VDatetime _
  | VDelta _, VDelta _ => true
  | _, _ => false
  end.
Definition whole_seconds (v : pyval) : Prop :=
  match v with VDatetime us | VDelta us => us mod 1000000 = 0 | _ => True end.

(** The columns for which a mode orders as documented. *)
Definition sortable coll pystr (m : mode) (reverse : bool) (vals : list pyval) : Prop :=
  match m with
  | Unix =>
      (∀ a, a ∈ vals → is_bytes a = false) ∧
      (* no 1 beside 1.0, no two texts with the same collation key *)
      (∀ a b, a ∈ vals → b ∈ vals → unix_cmp coll a b = Eq → a = b) ∧
      (* descending: either text only or no text *)
      (reverse = true → ∀ a b, a ∈ vals → b ∈ vals → is_text a = is_text b)
  | Excel =>
      (∀ a, a ∈ vals → is_bytes a = false) ∧
      (∀ a b, a ∈ vals → b ∈ vals →
        (* no 1 beside True *)
        (eq_class a = eq_class b → is_bool a = is_bool b) ∧
        (is_text a = true → is_text b = true → excel_cmp coll a b = Eq → a = b) ∧
        (* no two numbers, times, dates of different types with one serial number *)
        (excel_class a = 0%nat → excel_class b = 0%nat →
          same_kind a b = true ∨ whole_seconds a ∧ whole_seconds b ∧ serial a ≠ serial b))
  | Alphanumeric =>
      ∀ a b, a ∈ vals → b ∈ vals → eq_class a = eq_class b ∨ text_cmp coll pystr a b = Eq → a = b
  end.
