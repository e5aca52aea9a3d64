(** C76-C78: types guessed from texts (nimlite/infertypes.nim). *)
From Coq Require Import String.
From Verif.Model Require Import Infer.
From Verif.Proof Require Import InferProofs CompactDates.
Local Open Scope string_scope.
Local Open Scope list_scope.
Local Open Scope Z_scope.

(** ** C76: dates *)

(** The full claim, a date is read as it is written, fails for the later days of
    December when the year comes last. *)
Theorem C76_december_refuted :
  ¬ ∀ style sep d s, date_text style sep d s → zlen s <= 10 → date_separator sep → valid_ymd d →
      inferDate false (compact style) (month_first style) s = Ok d.
Proof.
  intros H. pose proof (H DayFirst 47 (Ymd 2023 12 25) (bytes_of "25/12/2023")) as E.
  assert (inferDate false false false (bytes_of "25/12/2023") = Err ValueError) as F by (by vm_compute).
  cbn [compact month_first] in E. rewrite F in E. discriminate E.
  - exists (bytes_of "2023"), (bytes_of "12"), (bytes_of "25"). repeat split; by repeat constructor.
  - by vm_compute.
  - right; by right; right.
  - by vm_compute.
Qed.
Print Assumptions C76_december_refuted.

Theorem C76_date_partial checks style sep d s :
  date_text style sep d s → zlen s <= 10 → date_separator sep → valid_ymd d → ¬ late_december style d →
  inferDate checks (compact style) (month_first style) s = Ok d.
Proof. exact (infer_date checks style sep d s). Qed.
Print Assumptions C76_date_partial.

Example C76_date_met :
  date_text DayFirst 46 (Ymd 2024 2 29) (bytes_of "29.2.2024") ∧ ¬ late_december DayFirst (Ymd 2024 2 29)
  ∧ inferDate false false false (bytes_of "29.2.2024") = Ok (Ymd 2024 2 29).
Proof.
  split; [|split; [by intros (_ & ? & _)|by vm_compute]].
  exists (bytes_of "2024"), (bytes_of "2"), (bytes_of "29"). repeat split; by repeat constructor.
Qed.

(** without the style: month first only if it cannot be the day *)
Theorem C76_any_partial checks style sep d s :
  date_text style sep d s → zlen s <= 10 → date_separator sep → valid_ymd d → ¬ late_december style d →
  (style = MonthFirst → 12 < dd d) → inferDate_any checks s = Ok d.
Proof. exact (infer_date_any_all checks style sep d s). Qed.
Print Assumptions C76_any_partial.

Example C76_any_met :
  date_text MonthFirst 47 (Ymd 2023 1 31) (bytes_of "01/31/2023")
  ∧ inferDate_any false (bytes_of "01/31/2023") = Ok (Ymd 2023 1 31).
Proof.
  split; [|by vm_compute].
  exists (bytes_of "2023"), (bytes_of "01"), (bytes_of "31"). repeat split; by repeat constructor.
Qed.

(** What is read as a date is one: fails for day 0 in the release build, for what
    follows eight digits, and a fourth part is written beyond the array. *)
Theorem C76_sound_refuted :
  inferDate false false false (bytes_of "2020-03-00") = Ok (Ymd 2020 2 29)
  ∧ inferDate false true false (bytes_of "20200101ab") = Ok (Ymd 2020 1 1)
  ∧ inferDate false false false (bytes_of "1-2-3-4-5") = Err IndexError.
Proof. by vm_compute. Qed.
Print Assumptions C76_sound_refuted.

Theorem C76_sound_partial checks is_american s d :
  inferDate checks false is_american s = Ok d →
  (checks = false → ∀ sep y m, ¬ date_text Iso sep (Ymd y m 0) s) →
  ∃ style sep, month_first style = is_american ∧ compact style = false ∧ date_separator sep ∧ valid_ymd d ∧
    date_text style sep d s.
Proof. exact (infer_date_sound checks is_american s d). Qed.
Print Assumptions C76_sound_partial.

Example C76_sound_met : inferDate true false true (bytes_of "2 3 2020") = Ok (Ymd 2020 2 3).
Proof. by vm_compute. Qed.

(** without separators: five digits, and nothing is said of signs and underscores after them *)
Theorem C76_compact_refuted :
  inferDate false true false (bytes_of "202001+5") = Ok (Ymd 2020 1 5)
  ∧ inferDate false true false (bytes_of "20201_5_") = Ok (Ymd 2020 1 5)
  ∧ inferDate false true false (bytes_of "20200100") = Ok (Ymd 2019 12 31).
Proof. by vm_compute. Qed.
Print Assumptions C76_compact_refuted.

Theorem C76_compact_sound_partial checks s d :
  inferDate checks true false s = Ok d →
  8 <= zlen s <= 10 ∧ Forall digit (take 5 s) ∧
  (Forall digit s → (checks = false → ∀ sep y m rest t, s = t ++ rest → ¬ date_text Compact sep (Ymd y m 0) t) →
   ∃ t rest, s = t ++ rest ∧ valid_ymd d ∧ ∀ sep, date_text Compact sep d t).
Proof. exact (infer_compact_sound checks s d). Qed.
Print Assumptions C76_compact_sound_partial.

Example C76_compact_met : inferDate true true false (bytes_of "2020013100") = Ok (Ymd 2020 1 31)
  ∧ Forall digit (bytes_of "2020013100") ∧ inferDate true true false (bytes_of "2020-01-31") = Err ValueError.
Proof. split; [by vm_compute|]. split; [by repeat constructor|by vm_compute]. Qed.

(** ** C77: times and dates with times *)

Theorem C77_time us s : time_text us s → inferTime s = Ok us.
Proof. exact (infer_time_text us s). Qed.
Print Assumptions C77_time.

Example C77_time_met : time_text 37830250000 (bytes_of "12:30:30.250+02:00")
  ∧ inferTime (bytes_of "12:30:30.250+02:00") = Ok 37830250000.
Proof.
  split; [|by vm_compute]. left.
  exists 45030250000, (bytes_of "12:30:30.250"), 7200000000, (bytes_of "+02:00").
  split; [|split; [|by vm_compute]].
  - apply (clock_milli 12 30 30 250 (bytes_of "12") (bytes_of "30") (bytes_of "30") (bytes_of "250"));
      by repeat constructor.
  - apply (zone_plus 7200000000 (bytes_of "02:00")); [|done].
    apply (clock_hm 2 0 (bytes_of "02") (bytes_of "00")); by repeat constructor.
Qed.

(** Every text is read as a time of a day or rejected with [ValueError]: neither
    holds. *)
Theorem C77_range_refuted :
  inferTime (bytes_of "99:99") = Ok 362340000000 ∧ us_per_day < 362340000000
  ∧ inferTime (bytes_of "01:00+02:00") = Ok (-3600000000)
  ∧ inferTime (bytes_of "08:00-16") = Err OtherError.
Proof. by vm_compute. Qed.
Print Assumptions C77_range_refuted.

Theorem C77_errors s e : inferTime s = Err e →
  e = ValueError ∨ e = OtherError ∧ ∃ t sign z, s = t ++ sign :: z ∧ (sign = 43 ∨ sign = 45) ∧
    length z ≠ 5%nat ∧ length z ≠ 8%nat ∧ length z ≠ 15%nat.
Proof. exact (infer_time_err s e). Qed.
Print Assumptions C77_errors.

Example C77_errors_met : inferTime (bytes_of "8:00") = Err ValueError.
Proof. by vm_compute. Qed.

(** The blank cannot both stand between the parts of a date and before the time. *)
Theorem C77_blank_refuted :
  inferDatetime false false (bytes_of "2020 02 29 23:00") = Err ValueError.
Proof. by vm_compute. Qed.
Print Assumptions C77_blank_refuted.

Theorem C77_datetime_partial checks style sep d us s :
  datetime_text style sep d us s → date_separator sep → valid_ymd d → ¬ late_december style d →
  ∃ d' us', moment d us d' us' ∧ inferDatetime checks (month_first style) s = Ok (d', us').
Proof. exact (infer_datetime_ok checks style sep d us s). Qed.
Print Assumptions C77_datetime_partial.

Theorem C77_datetime_any_partial checks style sep d us s :
  datetime_text style sep d us s → date_separator sep → valid_ymd d → ¬ late_december style d →
  (style = MonthFirst → 12 < dd d) →
  ∃ d' us', moment d us d' us' ∧ inferDatetime_any checks s = Ok (d', us').
Proof. exact (infer_datetime_any checks style sep d us s). Qed.
Print Assumptions C77_datetime_any_partial.

Example C77_datetime_met :
  datetime_text Iso 45 (Ymd 2020 2 29) 100800000000 (bytes_of "2020-02-29T23:00-05:00")
  ∧ moment (Ymd 2020 2 29) 100800000000 (Ymd 2020 3 1) 14400000000
  ∧ inferDatetime_any false (bytes_of "2020-02-29T23:00-05:00") = Ok (Ymd 2020 3 1, 14400000000).
Proof.
  split; [|by vm_compute].
  exists (bytes_of "2020-02-29"), (bytes_of "T"), (bytes_of "23:00-05:00").
  split. { exists (bytes_of "2020"), (bytes_of "02"), (bytes_of "29"). repeat split; by repeat constructor. }
  split; [by vm_compute|]. split.
  - left. exists 82800000000, (bytes_of "23:00"), (-18000000000), (bytes_of "-05:00").
    split; [|split; [|by vm_compute]].
    + apply (clock_hm 23 0 (bytes_of "23") (bytes_of "00")); by repeat constructor.
    + apply (zone_minus 18000000000 (bytes_of "05:00")); [|done].
      apply (clock_hm 5 0 (bytes_of "05") (bytes_of "00")); by repeat constructor.
  - split; [done|]. split; [by right; left|done].
Qed.

(** ** C78: whole numbers *)

(** exactly the texts of whole numbers, modulo 2^64 in the release build *)
Theorem C78_int checks is_american s v :
  inferInt checks false is_american s = Ok v ↔
  ∃ n, int_text (if is_american then 44 else 46) n (without_blanks s) ∧ wrapped n v
       ∧ (checks = true → - 2 ^ 63 < n < 2 ^ 63).
Proof. exact (infer_int_text checks is_american s v). Qed.
Print Assumptions C78_int.

Example C78_int_met : inferInt true false true (bytes_of " -1,234,567") = Ok (-1234567)
  ∧ inferInt true false true (bytes_of "12,34") = Err ValueError.
Proof. by vm_compute. Qed.

(** The number read is the number written: not in the release build. *)
Theorem C78_wrap_refuted : inferInt_any false (bytes_of "18446744073709551617") = Ok 1.
Proof. by vm_compute. Qed.
Print Assumptions C78_wrap_refuted.

Theorem C78_any_partial checks sep n s : sep = 44 ∨ sep = 46 → int_text sep n (without_blanks s) →
  - 2 ^ 63 < n < 2 ^ 63 → inferInt_any checks s = Ok n.
Proof. exact (infer_int_any_text checks sep n s). Qed.
Print Assumptions C78_any_partial.

Example C78_any_met : int_text 44 (-1234567) (without_blanks (bytes_of "-1,234,567"))
  ∧ inferInt_any false (bytes_of "-1,234,567") = Ok (-1234567).
Proof. split; [exact int_text_test|by vm_compute]. Qed.
