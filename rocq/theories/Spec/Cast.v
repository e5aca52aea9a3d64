(** What the conversions of values to other types may be expected to give.  Knows
    nothing of tablite but the record of the operations on floats. *)
From Verif.Model Require Export Cast.
From Verif.Spec Require Export FloatText.
Local Open Scope Z_scope.

(** floats of 53 bits; [val] is the number a float stands for *)
Record cast_floats (val : Z → Q) (ca : cast_arith) : Prop := CastFloats {
  cf_floats : rounded_arith val (ca_floats ca);
  cf_parse n s : whole_text n s → (val (f_parse (ca_floats ca) s) == fl (inject_Z n))%Q;
  cf_ge1 x : ca_ge1 ca x = true ↔ (1 <= val x)%Q;
  cf_int x : ca_int ca x = qtrunc (val x);
  cf_fraction x : ca_fraction_us ca x = qtrunc (fl ((val x - inject_Z (qtrunc (val x))) * inject_Z 1000000));
  cf_seconds n : (val (ca_seconds ca n) == fl (fl (inject_Z n) / inject_Z 1000000))%Q
}.

(** values of Python *)
Definition value_ok (c : cell) : Prop :=
  match c with
  | CNone => False
  | CDate d => python_date d
  | CDateTime d us => python_date d ∧ 0 <= us < us_per_day
  | CTime us => 0 <= us < us_per_day
  | _ => True
  end.

Definition micro (us : Z) : Q := (inject_Z us / inject_Z 1000000)%Q.
Definition midnight (d : ymd) : Q := inject_Z (epoch_days d * 86400).

Section Numbers.
  Context (val : Z → Q).

  (** the number a value stands for: dates and times are seconds, since 1970 and since
      midnight *)
  Definition as_seconds (c : cell) : option Q :=
    match c with
    | CBool b => Some (if b then 1 else 0)%Q
    | CInt n => Some (inject_Z n)
    | CFloat x => Some (val x)
    | CDate d => Some (midnight d)
    | CDateTime d us => Some (midnight d + micro us)%Q
    | CTime us => Some (micro us)
    | CStr _ | CNone => None
    end.

  Definition whole_number (q : Q) : Prop := ∃ n, (q == inject_Z n)%Q.

  (** [n] is [q] without its fraction *)
  Definition truncated (q : Q) (n : Z) : Prop :=
    ((0 <= q ∧ inject_Z n <= q ∧ q < inject_Z n + 1) ∨ (q <= 0 ∧ q <= inject_Z n ∧ inject_Z n - 1 < q))%Q.

  (** [w] is the value of type [k] for the number [q] *)
  Definition stands_for (k : kind) (q : Q) (w : cell) : Prop :=
    match k with
    | KBool => ∃ b, w = CBool b ∧ (b = true ↔ (1 <= q)%Q)
    | KInt => ∃ n, w = CInt n ∧ truncated q n
    | KFloat => ∃ x, w = CFloat x ∧ (val x == fl q)%Q
    | KDate => ∃ d, w = CDate d ∧ valid_ymd d ∧ (midnight d <= q ∧ q < midnight d + inject_Z 86400)%Q
    | KDateTime => ∃ d us, w = CDateTime d us ∧ valid_ymd d ∧ 0 <= us < us_per_day ∧ (q == midnight d + micro us)%Q
    | KTime => ∃ us days, w = CTime us ∧ 0 <= us < us_per_day ∧ (q == inject_Z (days * 86400) + micro us)%Q
    | KNone | KStr => False
    end.

  (** the seconds of Python's years, 1 to 9999 *)
  Definition python_seconds (q : Q) : Prop := (inject_Z (-62135596800) <= q ∧ q < inject_Z 253402300800)%Q.

  (** where this is so *)
  Definition in_reach (c : cell) (k : kind) (q : Q) : Prop :=
    match k with
    | KBool | KInt => True
    | KFloat =>
        match c with
        | CFloat _ => False | CDateTime _ _ | CTime _ => (Qabs q * inject_Z 1000000 <= inject_Z (2 ^ 53))%Q
        | _ => True
        end
    | KDate =>
        python_seconds q ∧ match c with CFloat _ => (0 <= q)%Q ∨ whole_number q | CTime _ => False | _ => True end
    | KDateTime => python_seconds q ∧ match c with CFloat _ => whole_number q | CTime _ => False | _ => True end
    | KTime =>
        (0 <= q)%Q ∧ match c with
                     | CInt n => n <= 2 ^ 53 | CFloat _ => whole_number q | CDate _ => False | _ => True
                     end
    | KNone | KStr => False
    end.
End Numbers.

(** ** Texts *)

(** how a value is written *)
Definition shown (c : cell) (s : list Z) : Prop :=
  match c with
  | CBool b => bool_text b s
  | CInt n => whole_text n s
  | CDate d => date_text Iso 45 d s ∧ zlen s = 10
  | CDateTime d us => ∃ date time, date_text Iso 45 d date ∧ zlen date = 10 ∧ clock us time ∧ s = date ++ [32] ++ time
  | CTime us => clock us s
  | CStr t => s = t
  | CNone | CFloat _ => False
  end.

(** values whose text tells everything *)
Definition told_by_text (c : cell) : Prop :=
  match c with
  | CInt n => - 2 ^ 53 <= n <= 2 ^ 53
  | CDateTime _ us | CTime us => us mod 1000000 = 0
  | CNone | CFloat _ => False
  | _ => True
  end.

(** ** Such floats exist: numbers by their codes *)
Definition whole_value (s : list Z) : Z :=
  match s with 45 :: ds => - digits_value ds | _ => digits_value s end.
Definition floats_of_codes : float_arith :=
  FloatArith (f_int (floats_by fl)) (f_add (floats_by fl)) (f_mul (floats_by fl)) (f_tenth (floats_by fl))
    (f_pow10 (floats_by fl)) (λ s, code_of (fl (inject_Z (whole_value s)))).
Definition casts_of_codes : cast_arith :=
  CastArith floats_of_codes (λ x, Qle_bool 1 (coded_number x)) (λ x, qtrunc (coded_number x))
    (λ x, qtrunc (fl ((coded_number x - inject_Z (qtrunc (coded_number x))) * inject_Z 1000000)))
    (λ n, code_of (fl (fl (inject_Z n) / inject_Z 1000000))) (λ _, []).
