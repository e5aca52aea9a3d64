(** The proleptic Gregorian calendar.  Knows nothing of tablite. *)
From Verif.Spec Require Export Base.
Local Open Scope Z_scope.

Definition gleap (y : Z) : bool :=
  (y mod 400 =? 0) || ((y mod 4 =? 0) && negb (y mod 100 =? 0)).

Definition month_days (y m : Z) : Z :=
  if m =? 2 then if gleap y then 29 else 28
  else if (m =? 4) || (m =? 6) || (m =? 9) || (m =? 11) then 30 else 31.

(** year, month, day of the month *)
Record ymd := Ymd { yy : Z; mm : Z; dd : Z }.

Definition valid_ymd (d : ymd) : Prop :=
  1 <= mm d <= 12 ∧ 1 <= dd d <= month_days (yy d) (mm d).

(** the day after *)
Definition next_day (d : ymd) : ymd :=
  if dd d <? month_days (yy d) (mm d) then Ymd (yy d) (mm d) (dd d + 1)
  else if mm d <? 12 then Ymd (yy d) (mm d + 1) 1
  else Ymd (yy d + 1) 1 1.

Example next_day_test1 : next_day (Ymd 1900 2 28) = Ymd 1900 3 1. Proof. reflexivity. Qed.
Example next_day_test2 : next_day (Ymd 2000 2 28) = Ymd 2000 2 29. Proof. reflexivity. Qed.
Example next_day_test3 : next_day (Ymd 2023 12 31) = Ymd 2024 1 1. Proof. reflexivity. Qed.

(** Duration in microseconds of the arguments of Python's [timedelta]. *)
Definition duration_us (weeks days hours minutes seconds milliseconds microseconds : Z) : Z :=
  (((weeks * 7 + days) * 24 + hours) * 60 + minutes) * 60 * 1000000
  + seconds * 1000000 + milliseconds * 1000 + microseconds.
