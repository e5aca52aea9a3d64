(** Texts which stand for one kind of value only, and what is known of Python's [fromisoformat].
    Knows nothing of tablite. *)
From Coq Require Import String.
From Verif.Spec Require Export TypedText.
Local Open Scope Z_scope.

(** hours below 24, minutes and seconds below 60 *)
Definition in_day (t : list Z) : Prop :=
  digits_value (take 2 t) < 24 ∧ digits_value (take 2 (drop 3 t)) < 60 ∧ digits_value (take 2 (drop 6 t)) < 60.
Definition wall_clock (us : Z) (t : list Z) : Prop := clock us t ∧ in_day t.

(** [2020-01-31] *)
Definition iso_day (d : ymd) (s : list Z) : Prop :=
  ∃ y m n, number_of 4 (yy d) y ∧ number_of 2 (mm d) m ∧ number_of 2 (dd d) n ∧ s = y ++ [45] ++ m ++ [45] ++ n.
(** [2020/1/31] or [31/1/2020]: day and month with one or two digits *)
Definition brief_date (day_first : bool) (sep : Z) (d : ymd) (s : list Z) : Prop :=
  ∃ y m n, number_of 4 (yy d) y ∧ number (mm d) m ∧ number (dd d) n ∧ zlen m <= 2 ∧ zlen n <= 2 ∧
    s = if day_first then n ++ [sep] ++ m ++ [sep] ++ y else y ++ [sep] ++ m ++ [sep] ++ n.
(** a blank or [T] between date and time *)
Definition time_mark (c : Z) : Prop := c = 32 ∨ c = 84.

(** [31/01/2020 23:59:59.999]: day and month with two digits, a blank or [T], a time *)
Definition full_moment (day_first : bool) (sep : Z) (d : ymd) (us : Z) (s : list Z) : Prop :=
  ∃ y m n c time, number_of 4 (yy d) y ∧ number_of 2 (mm d) m ∧ number_of 2 (dd d) n ∧ python_date d ∧
    date_separator sep ∧ time_mark c ∧ wall_clock us time ∧
    s = (if day_first then n ++ [sep] ++ m ++ [sep] ++ y else y ++ [sep] ++ m ++ [sep] ++ n) ++ [c] ++ time.
(** [20200131T2359], [20200131235959] or [20200131T23:59:59] *)
Definition compact_moment (d : ymd) (us : Z) (s : list Z) : Prop :=
  ∃ y m n mark time, number_of 4 (yy d) y ∧ number_of 2 (mm d) m ∧ number_of 2 (dd d) n ∧ python_date d ∧
    s = y ++ m ++ n ++ mark ++ time ∧
    ((mark = [] ∨ mark = [84]) ∧ compact_clock us time ∧ 4 <= zlen time ∧
       digits_value (take 2 time) < 24 ∧ digits_value (take 2 (drop 2 time)) < 60 ∧ digits_value (take 2 (drop 4 time)) < 60
     ∨ mark = [84] ∧ wall_clock us time ∧ zlen time = 8).

(** What the versions of Python from 3.7 on have in common: [None] is a ValueError, a time of the
    day is in microseconds. *)
Record iso_law (date : list Z → option ymd) (datetime : list Z → option (ymd * Z)) (time : list Z → option Z) : Prop := {
  (* a year of four digits, then a hyphen, a digit or W; seven characters at least *)
  law_date_shape : ∀ s v, date s = Some v → Forall digit (take 4 s) ∧ 7 <= zlen s ∧
    ∃ c, s !! 4%nat = Some c ∧ (c = 45 ∨ digit c ∨ c = 87);
  law_datetime_shape : ∀ s v, datetime s = Some v → Forall digit (take 4 s) ∧ 7 <= zlen s ∧
    ∃ c, s !! 4%nat = Some c ∧ (c = 45 ∨ digit c ∨ c = 87);
  law_time_shape : ∀ s v, time s = Some v → ∃ c, head s = Some c ∧ (digit c ∨ c = 84);
  law_day : ∀ d s, iso_day d s → python_date d → date s = Some d ∧ datetime s = Some (d, 0);
  law_no_day : ∀ d s, iso_day d s → ¬ python_date d → date s = None ∧ datetime s = None;
  law_moment : ∀ d s c us t, iso_day d s → python_date d → time_mark c → wall_clock us t →
    datetime (s ++ [c] ++ t) = Some (d, us);
  (* refused by older versions *)
  law_compact : ∀ d us s v, compact_moment d us s → datetime s = Some v → v = (d, us);
  law_time : ∀ us t, wall_clock us t → time t = Some us
}.

(** [20200131] *)
Definition compact_date (d : ymd) (s : list Z) : Prop :=
  ∃ y m n, number_of 4 (yy d) y ∧ number_of 2 (mm d) m ∧ number_of 2 (dd d) n ∧ s = y ++ m ++ n.
(** an optional sign and digits *)
Definition signed_number (n : Z) (s : list Z) : Prop :=
  number n s ∨ ∃ k ds, number k ds ∧ (s = 43 :: ds ∧ n = k ∨ s = 45 :: ds ∧ n = - k).
(** without quotes, blanks and commas *)
Definition bare (s : list Z) : list Z := filter (λ c, c ≠ 34 ∧ c ≠ 32 ∧ c ≠ 44) s.

(** letters *)
Definition letter (c : Z) : Prop := 65 <= c <= 90 ∨ 97 <= c <= 122.
Definition lower (c : Z) : Z := if (65 <=? c) && (c <=? 90) then c + 32 else c.
Definition spells (word : string) (s : list Z) : Prop := map lower s = ascii_bytes word.

(** what stands for a missing value *)
Definition missing_texts : list (list Z) :=
  map ascii_bytes ["null"; "Null"; "NULL"; "#N/A"; "#n/a"; ""; "None"]%string.
Definition missing (v : cell) : Prop := v = CNone ∨ ∃ s, v = CStr s ∧ s ∈ missing_texts.

(** [s] can only be the value [w] of that kind:
    - [2020-01-31], [2020-01-31T23:59], a datetime
    - [31-01-2020], [31.1.2020], [2020/01/31], a date
    - [23:59:59], a time
    - [12], [-12345678], [1,234,567]: at most six digits without a sign or commas
    - [true]
    - [1234.5], [-12345678.5]: at most four digits before the point without a sign; [read] and
      [show] are the conversions of floats, the float shown with as many decimals is the text
    - a text which begins with a letter other than E, N and T *)
Definition plain_text (read : list Z → option Z) (show : nat → Z → list Z) (k : kind) (s : list Z) (w : cell) : Prop :=
  match k with
  | KDateTime => ∃ d us day rest, iso_day d day ∧ python_date d ∧ s = day ++ rest ∧ w = CDateTime d us ∧
      (rest = [] ∧ us = 0 ∨ ∃ c t, rest = [c] ++ t ∧ time_mark c ∧ wall_clock us t)
  | KDate => ∃ d day_first sep, brief_date day_first sep d s ∧ date_separator sep ∧ python_date d ∧
      w = CDate d ∧ (day_first = false → sep ≠ 45)
  | KTime => ∃ us, wall_clock us s ∧ w = CTime us
  | KInt => ∃ n, int_text 44 n s ∧ w = CInt n ∧
      ((∃ ds, number n ds ∧ s = ds ∧ zlen ds <= 6) ∨ (∃ c, head s = Some c ∧ (c = 43 ∨ c = 45)) ∨
       ∃ g rest, s = g ++ [44] ++ rest ∧ Forall digit g ∧ zlen g <= 3)
  | KBool => spells "true" s ∧ w = CBool true ∨ spells "false" s ∧ w = CBool false
  | KFloat => ∃ a b x, decimal_text a b s ∧ read s = Some x ∧ show (length b) x = s ∧ w = CFloat x ∧
      (zlen a <= 4 ∨ head s = Some 45)
  | KStr => w = CStr s ∧ s ∉ missing_texts ∧ ¬ spells "true" s ∧ ¬ spells "false" s ∧
      ∃ c, head s = Some c ∧ letter c ∧ c ≠ 69 ∧ c ≠ 101 ∧ c ≠ 78 ∧ c ≠ 84
  | KNone => False
  end.

(** a column of values of one kind, in a column of texts without missing values *)
Definition plain_column read show (k : kind) (vs ws : list cell) : Prop :=
  Forall2 (λ v w, (missing v ∧ w = CNone ∧ k ≠ KStr) ∨ ∃ s, v = CStr s ∧ plain_text read show k s w) vs ws.

(** ** [fromisoformat] of Python 3.7 to 3.10, without time zones *)

(** [k] digits from position [i] on *)
Definition digits_at (s : list Z) (i k : nat) : option Z :=
  let t := take k (drop i s) in
  if (length t =? k)%nat && forallb (λ c, (48 <=? c) && (c <=? 57)) t then Some (digits_value t) else None.
Definition char_is (s : list Z) (i : nat) (c : Z) : bool := bool_decide (s !! i = Some c).
Definition iso37_date (s : list Z) : option ymd :=
  if (length s =? 10)%nat && char_is s 4 45 && char_is s 7 45 then
    y ← digits_at s 0 4; m ← digits_at s 5 2; d ← digits_at s 8 2;
    if (1 <=? y) && (1 <=? m) && (m <=? 12) && (1 <=? d) && (d <=? month_days y m) then Some (Ymd y m d) else None
  else None.
Definition iso37_time (s : list Z) : option Z :=
  h ← digits_at s 0 2; m ← digits_at s 3 2;
  x ← (if (length s =? 5)%nat then Some 0 else if char_is s 5 58 then digits_at s 6 2 else None);
  f ← (if (length s =? 5)%nat || (length s =? 8)%nat then Some 0
       else if negb (char_is s 8 46) then None
       else if (length s =? 12)%nat then Z.mul 1000 <$> digits_at s 9 3
       else if (length s =? 15)%nat then digits_at s 9 6 else None);
  if char_is s 2 58 && (h <? 24) && (m <? 60) && (x <? 60) then Some (((h * 60 + m) * 60 + x) * 1000000 + f) else None.
Definition iso37_datetime (s : list Z) : option (ymd * Z) :=
  d ← iso37_date (take 10 s);
  if (length s =? 10)%nat then Some (d, 0) else us ← iso37_time (drop 11 s); Some (d, us).
