(** C93, C94: what a sheet holds.  Nothing of the readers. *)
From stdpp Require Export strings.
From Verif.Spec Require Export PyList Rows Npy.
Local Open Scope Z_scope.

(** The value of a cell: a float is its 64 bits, a text its code points; [XObj]: a date, a time or both; [XOther]: any other
    type, such as a duration. *)
Inductive xcell (O : Type) : Type :=
| XNone | XBool (b : bool) | XInt (z : Z) | XFloat (bits : Z) | XStr (s : list Z) | XObj (o : O) | XOther.
Arguments XNone {O}. Arguments XBool {O}. Arguments XInt {O}. Arguments XFloat {O}. Arguments XStr {O}.
Arguments XObj {O}. Arguments XOther {O}.

Global Instance xcell_eq_dec {O} `{EqDecision O} : EqDecision (xcell O).
Proof. solve_decision. Defined.

(** a character with a code in UTF-8 *)
Definition scalar (c : Z) : Prop := code_point c ∧ ¬ (0xD800 <= c <= 0xDFFF).

(** a text without tabs and line ends *)
Definition on_one_line (s : list Z) : list Z := filter (λ c, c ∉ [9; 10; 13]) s.
Definition cleaned {O} (v : xcell O) : xcell O := match v with XStr s => XStr (on_one_line s) | _ => v end.

(** the values that can be imported; [size] is the length of a pickled value *)
Definition storable {O} (size : O → Z) (v : xcell O) : Prop :=
  match v with
  | XNone | XBool _ => True
  | XInt z => - 2 ^ 63 <= z < 2 ^ 63
  | XFloat bits => 0 <= bits < 2 ^ 64
  | XStr s => Forall scalar s ∧ zlen (utf8 s) < 2 ^ 32
  | XObj o => size o < 2 ^ 32
  | XOther => False
  end.

(** [skip_empty] *)
Inductive skip := SkipNone | SkipAll | SkipAny.
Definition keeps {A} (blank : A → Prop) (s : skip) (row : list A) : Prop :=
  match s with
  | SkipNone => True
  | SkipAll => Exists (λ v, ¬ blank v) row
  | SkipAny => Forall (λ v, ¬ blank v) row
  end.
Global Instance keeps_dec {A} (blank : A → Prop) `{∀ v, Decision (blank v)} s row : Decision (keeps blank s row).
Proof. destruct s; cbn [keeps]; apply _. Defined.

(** the cell in column [i] of a row *)
Definition cell_at {O} (i : nat) (row : list (xcell O)) : xcell O := default XNone (row !! i).

(** the header that a cell gives; [str] is Python's *)
Definition header_text {O} (str : xcell O → string) (v : xcell O) : string :=
  match v with XNone => ""%string | v => str v end.

(** The columns [d] chosen from a sheet with the given headers: a name and a position each.  All of them, or for each of the names
    asked for the first column with that header. *)
Definition chooses (fields : list string) (columns : option (list string)) (d : list (string * nat)) : Prop :=
  NoDup d.*1 ∧
  match columns with
  | None => d.*2 = seq 0 (length fields) ∧ (NoDup fields → d.*1 = fields)
  | Some cs => Forall2 (λ k p, fields !! p.2 = Some k ∧ ∀ j, (j < p.2)%nat → fields !! j ≠ Some k) cs d ∧ (NoDup cs → d.*1 = cs)
  end.
(** the same for ODS: every column with a header asked for, in the order of the sheet *)
Definition asked (columns : option (list string)) (header : string) : Prop :=
  match columns with None => True | Some cs => header ∈ cs end.
Global Instance asked_dec columns header : Decision (asked columns header).
Proof. destruct columns; cbn [asked]; apply _. Defined.
Definition chooses_all (fields : list string) (columns : option (list string)) (d : list (string * nat)) : Prop :=
  NoDup d.*1 ∧
  d.*2 = filter (λ i, asked columns (default ""%string (fields !! i))) (seq 0 (length fields)).
