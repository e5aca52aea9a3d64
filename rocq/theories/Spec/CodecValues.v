(** Values with the fields that an encoding has to keep.  Nothing here is part of tablite. *)
From Verif.Spec Require Export Binary64 Calendar.
From stdpp Require Export strings.
From Coq Require Export Ascii.
Local Open Scope Z_scope.

(** Text by its UTF-8 encoding (a str which has one, that is without lone surrogates), bytes. *)
Definition text := list ascii.

(** a float: a finite number other than -0.0, -0.0, the infinities, nan *)
Inductive fval := Fin (q : Qc) | NegZero | PosInf | NegInf | Nan.

(** hour, minute, second, microsecond *)
Record tod := Tod { hh : Z; mi : Z; ss : Z; us : Z }.

Inductive cval :=
| CNone | CBool (b : bool) | CInt (z : Z) | CFloat (f : fval) | CStr (s : text) | CBytes (s : text)
| CDatetime (d : ymd) (t : tod)       (* without time zone *)
| CDate (d : ymd)
| CTime (t : tod)                     (* without time zone *)
| CDelta (days seconds microseconds : Z).

Definition py_date (d : ymd) : Prop := 1 <= yy d <= 9999 ∧ valid_ymd d.
Definition py_tod (t : tod) : Prop := 0 <= hh t < 24 ∧ 0 <= mi t < 60 ∧ 0 <= ss t < 60 ∧ 0 <= us t < 1000000.
(** the values which exist in Python *)
Definition py_value (v : cval) : Prop :=
  match v with
  | CFloat (Fin q) => fl (this q) = q
  | CDatetime d t => py_date d ∧ py_tod t
  | CDate d => py_date d
  | CTime t => py_tod t
  | CDelta d s u => -999999999 <= d <= 999999999 ∧ 0 <= s < 86400 ∧ 0 <= u < 1000000
  | _ => True
  end.

(** [repr] of floats and [float] of a text: reading back gives the same float, and the text of a
    finite float has digits, '.', '-', '+' and 'e' only. *)
Definition reads_back (fshow : fval → text) (fread : text → option fval) : Prop :=
  (∀ q, fl (this q) = q → fread (fshow (Fin q)) = Some (Fin q)) ∧
  (∀ f, (∀ q, f ≠ Fin q) → fread (fshow f) = Some f).
Definition float_char (c : ascii) : bool := bool_decide (c ∈ list_ascii_of_string "0123456789.-+e"%string).
Definition plain_text (fshow : fval → text) : Prop := ∀ q, Forall (λ c, float_char c = true) (fshow (Fin q)).
