(** What a filter dictionary says, and Python's comparisons.  Nothing here is part of tablite. *)
From Verif.Spec Require Export Rows Filter PyValue.
Local Open Scope string_scope.
Local Open Scope list_scope.
Local Open Scope Z_scope.

(** ** Comparisons *)
Inductive operator := RGt | RGe | REq | RLt | RLe | RNe | RIn.

Definition sign (r : operator) : string :=
  match r with RGt => ">" | RGe => ">=" | REq => "==" | RLt => "<" | RLe => "<=" | RNe => "!=" | RIn => "in" end.

(** The order of two values of one type (bools, ints and floats are numbers) *)
Definition py_order (x y : pyval) : option comparison :=
  match number x, number y with
  | Some a, Some b => Some (a ?= b)%Qc
  | _, _ =>
      match x, y with
      | VStr a, VStr b | VBytes a, VBytes b => Some (String.compare a b)
      | VTime a, VTime b | VDate a, VDate b | VDatetime a, VDatetime b | VDelta a, VDelta b => Some (a ?= b)
      | _, _ => None
      end
  end.

(** [a in b] for texts (C95_part_of: [b] is something, [a], something) *)
Fixpoint part_of (a b : string) : bool :=
  String.prefix a b || match b with EmptyString => false | String _ b => part_of a b end.

(** [x r y] in Python; [str] is Python's [str], and [in] asks whether the text of [x] occurs in the
    text of [y].  None: a TypeError. *)
Definition py_relation (str : pyval → string) (r : operator) (x y : pyval) : option bool :=
  match r with
  | REq => Some (bool_decide (eq_class x = eq_class y))
  | RNe => Some (negb (bool_decide (eq_class x = eq_class y)))
  | RIn => Some (part_of (str x) (str y))
  | RGt => (λ c, match c with Gt => true | _ => false end) <$> py_order x y
  | RGe => (λ c, match c with Lt => false | _ => true end) <$> py_order x y
  | RLt => (λ c, match c with Lt => true | _ => false end) <$> py_order x y
  | RLe => (λ c, match c with Gt => false | _ => true end) <$> py_order x y
  end.

(** ** Dictionaries *)

(** Either side of a comparison is a column or a value. *)
Inductive side := Column (n : string) | Value (v : pyval).

Definition left_entry (s : side) : string * pyval :=
  match s with Column n => ("column1", VStr n) | Value v => ("value1", v) end.
Definition right_entry (s : side) : string * pyval :=
  match s with Column n => ("column2", VStr n) | Value v => ("value2", v) end.

Definition clause : Type := side * operator * side.

(** The dictionary [d] says "left, operator, right": it has these three entries and no other. *)
Definition says (d : list (string * pyval)) (c : clause) : Prop :=
  d ≡ₚ [("criteria", VStr (sign c.1.2)); left_entry c.1.1; right_entry c.2].

(** The columns named in the clauses *)
Definition mentions (cs : list clause) (n : string) : Prop :=
  ∃ c, c ∈ cs ∧ (c.1.1 = Column n ∨ c.2 = Column n).

Section meaning.
  Context (test : operator → pyval → pyval → bool) (v : view (N := string) (A := pyval)).

  (** The value of a side in row [i] *)
  Definition side_value (i : nat) (s : side) : pyval :=
    match s with Column n => field VNone v n i | Value x => x end.
  Definition clause_holds (i : nat) (c : clause) : bool :=
    test c.1.2 (side_value i c.1.1) (side_value i c.2).
  (** All ([every]) or any of the clauses hold in row [i]. *)
  Definition row_holds (every : bool) (cs : list clause) (i : nat) : bool :=
    if every then all_of (map (clause_holds i) cs) else any_of (map (clause_holds i) cs).
End meaning.

(** The values the native filter can hold: no bytes and timedeltas, ints of 64 bits *)
Definition native_value (v : pyval) : Prop :=
  match v with
  | VBytes _ | VDelta _ => False
  | VInt z => - 2 ^ 63 <= z < 2 ^ 63
  | _ => True
  end.
Definition native_side (s : side) : Prop := match s with Column _ => True | Value v => native_value v end.

(** The columns of the clause exist and its values are native. *)
Definition in_columns (columns : list string) (s : side) : Prop := match s with Column n => n ∈ columns | Value _ => True end.
Definition fits (columns : list string) (c : clause) : Prop :=
  in_columns columns c.1.1 ∧ in_columns columns c.2 ∧ native_side c.1.1 ∧ native_side c.2.

Example says_test :
  says [("value2", VInt 4); ("criteria", VStr "!="); ("column1", VStr "C")] (Column "C", RNe, Value (VInt 4)).
Proof. unfold says. cbn. apply Permutation_cons_append. Qed.
Example py_relation_test :
  py_relation (λ _, "") RLt (VBool true) (VFloat (ratio 3 2)) = Some true ∧
  py_relation (λ _, "") RLe (VStr "b") (VStr "ab") = Some false ∧
  py_relation (λ _, "") RLt (VInt 1) (VStr "a") = None ∧
  py_relation (λ _, "") RNe (VInt 1) (VStr "a") = Some true.
Proof. by vm_compute. Qed.

(** [name] is the word [w] (of small letters), some letters of which may be capitals. *)
Definition spelled (name w : string) : Prop :=
  Forall2 (λ a b, a = b ∨ (Ascii.nat_of_ascii a + 32 = Ascii.nat_of_ascii b)%nat)
    (String.list_ascii_of_string name) (String.list_ascii_of_string w).
Definition quantifier (every : bool) : string := if every then "all" else "any".

Example spelled_test : spelled "All" (quantifier true).
Proof. repeat constructor; (by left) || (by right). Qed.

(** ** Where the two ways to compare agree *)

(** Python's comparison, where a TypeError counts as False *)
Definition python_test (str : pyval → string) (r : operator) (x y : pyval) : bool :=
  default false (py_relation str r x y).

Definition py_type (v : pyval) : string :=
  match v with
  | VNone => "NoneType" | VBool _ => "bool" | VInt _ => "int" | VFloat _ => "float" | VStr _ => "str"
  | VBytes _ => "bytes" | VTime _ => "time" | VDate _ => "date" | VDatetime _ => "datetime" | VDelta _ => "timedelta"
  end.

(** Native values [x], [y] about which Python and the native comparison say the same: the left one is
    None, or they are of one type, or an int and a float; or the question is not [!=], and they are
    not two numbers (one of them a bool) nor a date and a datetime.  For [in] the texts must be the same. *)
Definition alike (repr str : pyval → string) (r : operator) (x y : pyval) : Prop :=
  native_value x ∧ native_value y ∧
  match r with
  | RIn => repr x = str x ∧ repr y = str y
  | _ =>
      x = VNone ∨ py_type x = py_type y ∨
      (py_type x ∈ ["int"; "float"] ∧ py_type y ∈ ["int"; "float"]) ∨
      (r ≠ RNe ∧ ¬ (py_type x ∈ ["bool"; "int"; "float"] ∧ py_type y ∈ ["bool"; "int"; "float"]) ∧
        ¬ (py_type x ∈ ["date"; "datetime"] ∧ py_type y ∈ ["date"; "datetime"]))
  end.
