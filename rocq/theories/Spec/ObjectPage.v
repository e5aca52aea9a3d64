(** The elements of a page of objects and what a stored page has to give back.
    Knows nothing of tablite. *)
From Verif.Spec Require Export Counts Calendar.
Local Open Scope Z_scope.

(** None, a truth value, a whole number, the 64 bits of a float, the UTF-8 bytes
    of a text, a date, a time of the day in microseconds since midnight, a date
    with the time of that day *)
Inductive cell :=
| CNone
| CBool (b : bool)
| CInt (z : Z)
| CFloat (bits : Z)
| CStr (text : list Z)
| CDate (d : ymd)
| CTime (us : Z)
| CDateTime (d : ymd) (us : Z).

Inductive kind := KNone | KBool | KInt | KFloat | KStr | KDate | KTime | KDateTime.

Global Instance ymd_eq_dec : EqDecision ymd.
Proof. solve_decision. Defined.
Global Instance cell_eq_dec : EqDecision cell.
Proof. solve_decision. Defined.
Global Instance kind_eq_dec : EqDecision kind.
Proof. solve_decision. Defined.

Definition kind_of (c : cell) : kind :=
  match c with
  | CNone => KNone | CBool _ => KBool | CInt _ => KInt | CFloat _ => KFloat
  | CStr _ => KStr | CDate _ => KDate | CTime _ => KTime | CDateTime _ _ => KDateTime
  end.

(** microseconds of a day *)
Definition us_per_day : Z := 24 * 60 * 60 * 1000000.

(** the years of Python's dates *)
Definition python_date (d : ymd) : Prop := 1 <= yy d <= 9999 ∧ valid_ymd d.

(** what a cell may hold: whole numbers of 32 bits, texts below 2 GiB *)
Definition cell_ok (c : cell) : Prop :=
  match c with
  | CNone | CBool _ => True
  | CInt z => - 2 ^ 31 <= z < 2 ^ 31
  | CFloat bits => 0 <= bits < 2 ^ 64
  | CStr t => zlen t < 2 ^ 31
  | CDate d => python_date d
  | CTime us => 0 <= us < us_per_day
  | CDateTime d us => python_date d ∧ 0 <= us < us_per_day
  end.

(** no fraction of a second *)
Definition whole_seconds (c : cell) : Prop :=
  match c with
  | CTime us | CDateTime _ us => us mod 1000000 = 0
  | _ => True
  end.

(** A page of these cells: its shape, its elements and how many of each kind. *)
Definition page_of (cs : list cell) (p : list Z * list cell * list (kind * Z)) : Prop :=
  p.1.1 = [zlen cs] ∧ p.1.2 = cs ∧ counts_exactly p.2 (map kind_of cs).

(** the fraction of the second of a time, in microseconds *)
Definition fraction (c : cell) : Z :=
  match c with
  | CTime us | CDateTime _ us => us mod 1000000
  | _ => 0
  end.

(** the fraction of the second counted 256 times *)
Definition stretched (c : cell) : cell :=
  match c with
  | CTime us => CTime (us + 255 * fraction c)
  | CDateTime d us => CDateTime d (us + 255 * fraction c)
  | c => c
  end.

(** a date with a time *)
Definition is_datetime (c : cell) : Prop := kind_of c = KDateTime.
