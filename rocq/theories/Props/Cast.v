(** C84, conversions of [column_select] between types.

    [convert ca checks objects k v]: the value [v] as one of type [k], written to a page of
    objects or of numbers.  [cast_floats val ca]: floats of 53 bits, [val x] is the number of the
    float [x]. *)
From Coq Require Import String.
From Verif.Spec Require Import Cast.
From Verif.Proof Require Import CastProofs CastTexts FloatFinal.
Local Open Scope string_scope.
Local Open Scope list_scope.
Local Open Scope Z_scope.

(** ** C84
    Full statement: bools, numbers, dates and times stand for numbers (of seconds), and the
    converted value is the one of its type for this number; the text of a value, and every text for
    it, is converted to the value; there and back gives the value again.  It is false: *)

(** *** A microsecond is lost: 00:00:00.000249 as a float is 0.000249, and this as a time is
    00:00:00.000248. *)
Theorem C84_trip_refuted val ca : cast_floats val ca → ∀ checks objects,
  ∃ x, convert ca checks objects KFloat (CTime 249) = Ok (CFloat x) ∧
       convert ca checks objects KTime (CFloat x) = Ok (CTime 248).
Proof. exact (trip_249 val ca). Qed.
Print Assumptions C84_trip_refuted.

(** *** Half a second before 1970 is a moment of 1970 if it is a float. *)
Theorem C84_before_refuted val ca : cast_floats val ca → ∀ checks objects x, (val x == - (1 # 2))%Q →
  convert ca checks objects KDate (CFloat x) = Ok (CDate (Ymd 1970 1 1)).
Proof. exact (half_before val ca). Qed.
Print Assumptions C84_before_refuted.

(** *** The text of a whole number is read as a float, so that 9007199254740993 becomes even. *)
Theorem C84_long_refuted val ca : cast_floats val ca → ∀ checks objects,
  convert ca checks objects KStr (CInt 9007199254740993) = Ok (CStr (bytes_of "9007199254740993")) ∧
  convert ca checks objects KInt (CStr (bytes_of "9007199254740993")) = Ok (CInt 9007199254740992).
Proof.
  intros Hf checks objects. split; [by destruct objects|].
  rewrite (read_int val ca Hf checks objects 9007199254740993); [by vm_compute|].
  exists (bytes_of "9007199254740993"), 9007199254740993. split; [|by left]. split; [done|]. split; [by repeat constructor|done].
Qed.
Print Assumptions C84_long_refuted.

(** *** A moment before 1970 written as a text is the wrong day in a page of dates, the right one
    in a page of objects. *)
Theorem C84_day_refuted ca checks :
  convert ca checks false KDate (CStr (bytes_of "1969-12-30 12:00:00")) = Ok (CDate (Ymd 1969 12 31)) ∧
  convert ca checks true KDate (CStr (bytes_of "1969-12-30 12:00:00")) = Ok (CDate (Ymd 1969 12 30)).
Proof. destruct checks; by vm_compute. Qed.
Print Assumptions C84_day_refuted.

(** *** Moments before 1970 have no time of the day, neither have texts whose time zone leads to
    the day before: the error is none which is expected.  Whether -5 is true is not what Python
    says. *)
Theorem C84_fails_refuted ca checks objects :
  convert ca checks objects KTime (CDateTime (Ymd 1969 12 31) 43200000000) = Err OtherError ∧
  convert ca checks objects KTime (CStr (bytes_of "01:00+02:00")) = Err OtherError ∧
  convert ca checks objects KBool (CInt (-5)) = Ok (CBool false).
Proof. destruct objects; by vm_compute. Qed.
Print Assumptions C84_fails_refuted.

(** ** What holds *)

(** values of the type are unchanged *)
Theorem C84_own ca checks objects c : value_ok c → convert ca checks objects (kind_of c) c = Ok c.
Proof. exact (convert_own ca checks objects c). Qed.
Print Assumptions C84_own.

Example C84_own_met : value_ok (CDateTime (Ymd 1900 2 28) 86399999999) ∧ value_ok (CTime 1).
Proof. by vm_compute. Qed.

(** numbers, dates and times *)
Theorem C84_numbers_partial val ca : cast_floats val ca → ∀ checks objects k c q,
  value_ok c → as_seconds val c = Some q → in_reach c k q →
  ∃ w, convert ca checks objects k c = Ok w ∧ stands_for val k q w.
Proof. exact (convert_number val ca). Qed.
Print Assumptions C84_numbers_partial.

(** such floats exist; 43 seconds before 1970, as a whole number and as a moment *)
Example C84_numbers_met : cast_floats coded_number casts_of_codes ∧
  in_reach (CInt (-43)) KDateTime (inject_Z (-43)) ∧
  convert casts_of_codes false false KDateTime (CInt (-43)) = Ok (CDateTime (Ymd 1969 12 31) 86357000000) ∧
  convert casts_of_codes false true KInt (CDateTime (Ymd 1969 12 31) 86357000001) = Ok (CInt (-42)) ∧
  convert casts_of_codes false true KDate (CDateTime (Ymd 1969 12 31) 86357000001) = Ok (CDate (Ymd 1969 12 31)) ∧
  in_reach (CDateTime (Ymd 2020 2 29) 1500000) KTime (midnight (Ymd 2020 2 29) + micro 1500000)%Q ∧
  convert casts_of_codes false false KTime (CDateTime (Ymd 2020 2 29) 1500000) = Ok (CTime 1500000).
Proof. split; [exact casts_codes|]. split; [by vm_compute|]. repeat split; by vm_compute. Qed.

(** there is no time of a date, no date of a time, nothing of None *)
Theorem C84_none_partial ca checks objects k d us :
  convert ca checks objects k CNone = Err ValueError ∧
  convert ca checks objects KTime (CDate d) = Err ValueError ∧
  convert ca checks objects KDate (CTime us) = Err ValueError ∧
  convert ca checks objects KDateTime (CTime us) = Err ValueError.
Proof. done. Qed.
Print Assumptions C84_none_partial.

(** floats with a fraction to moments: less than two microseconds off *)
Theorem C84_float_partial val ca : cast_floats val ca → ∀ checks objects x,
  (inject_Z (-62135596799) <= val x)%Q → (val x <= inject_Z 253402300799)%Q →
  ∃ d us, convert ca checks objects KDateTime (CFloat x) = Ok (CDateTime d us) ∧ valid_ymd d ∧ 0 <= us < us_per_day ∧
    (Qabs (midnight d + micro us - val x) < micro 2)%Q.
Proof. exact (float_moment val ca). Qed.
Print Assumptions C84_float_partial.

(** moments to floats and back, 1828 to 2112: one microsecond at most; times: one less or none *)
Theorem C84_datetime_trip_partial val ca : cast_floats val ca → ∀ checks objects d us,
  value_ok (CDateTime d us) → (Qabs (midnight d + micro us) <= inject_Z 4503599627)%Q →
  ∃ x d' us', convert ca checks objects KFloat (CDateTime d us) = Ok (CFloat x) ∧
    convert ca checks objects KDateTime (CFloat x) = Ok (CDateTime d' us') ∧
    valid_ymd d' ∧ 0 <= us' < us_per_day ∧ (Qabs (midnight d' + micro us' - (midnight d + micro us)) <= micro 1)%Q.
Proof. exact (datetime_trip val ca). Qed.
Print Assumptions C84_datetime_trip_partial.

Example C84_datetime_trip_met : value_ok (CDateTime (Ymd 2112 1 1) 1) ∧
  (Qabs (midnight (Ymd 2112 1 1) + micro 1) <= inject_Z 4503599627)%Q.
Proof. by vm_compute. Qed.

Theorem C84_time_trip_partial val ca : cast_floats val ca → ∀ checks objects us, 0 <= us < us_per_day →
  ∃ x us', convert ca checks objects KFloat (CTime us) = Ok (CFloat x) ∧
    convert ca checks objects KTime (CFloat x) = Ok (CTime us') ∧ (us' = us ∨ us' = us - 1).
Proof. exact (time_trip val ca). Qed.
Print Assumptions C84_time_trip_partial.

(** ** Texts *)

(** to text and back; whole numbers up to 2^53, whole seconds, no floats *)
Theorem C84_text_partial val ca : cast_floats val ca → ∀ checks objects c, value_ok c → told_by_text c →
  ∃ s, convert ca checks objects KStr c = Ok (CStr s) ∧ shown c s ∧ convert ca checks objects (kind_of c) (CStr s) = Ok c.
Proof. exact (text_trip val ca). Qed.
Print Assumptions C84_text_partial.

Example C84_text_met : told_by_text (CDateTime (Ymd 999 12 31) 3723000000) ∧
  convert casts_of_codes false false KStr (CDateTime (Ymd 999 12 31) 3723000000) = Ok (CStr (bytes_of "0999-12-31 01:02:03")) ∧
  told_by_text (CInt (-9007199254740992)).
Proof. by vm_compute. Qed.

(** texts of dates (as in C76), also as moments *)
Theorem C84_read_date_partial ca checks objects style sep d s :
  date_text style sep d s → zlen s <= 10 → date_separator sep → python_date d → ¬ late_december style d →
  (style = MonthFirst → 12 < dd d) →
  convert ca checks objects KDate (CStr s) = Ok (CDate d) ∧
  convert ca checks objects KDateTime (CStr s) = Ok (CDateTime d 0).
Proof. exact (read_date ca checks objects style sep d s). Qed.
Print Assumptions C84_read_date_partial.

Example C84_read_date_met : date_text DayFirst 46 (Ymd 1924 2 29) (bytes_of "29.2.1924").
Proof. exists (bytes_of "1924"), (bytes_of "2"), (bytes_of "29"). repeat split; by repeat constructor. Qed.

(** texts of moments (as in C77), also as dates; not before 1970, unless at midnight or in a page of
    objects *)
Theorem C84_read_moment_partial ca checks objects style sep d us s d' us' :
  datetime_text style sep d us s → date_separator sep → valid_ymd d → ¬ late_december style d →
  (style = MonthFirst → 12 < dd d) → moment d us d' us' → python_date d' →
  convert ca checks objects KDateTime (CStr s) = Ok (CDateTime d' us') ∧
  (10 < zlen s → us' = 0 ∨ 0 <= epoch_days d' ∨ objects = true →
   convert ca checks objects KDate (CStr s) = Ok (CDate d')).
Proof. exact (read_moment ca checks objects style sep d us s d' us'). Qed.
Print Assumptions C84_read_moment_partial.

Example C84_read_moment_met :
  datetime_text Iso 45 (Ymd 2020 2 29) 100800000000 (bytes_of "2020-02-29T23:00-05:00")
  ∧ moment (Ymd 2020 2 29) 100800000000 (Ymd 2020 3 1) 14400000000 ∧ 0 <= epoch_days (Ymd 2020 3 1).
Proof.
  split; [|by vm_compute].
  exists (bytes_of "2020-02-29"), (bytes_of "T"), (bytes_of "23:00-05:00").
  split. { exists (bytes_of "2020"), (bytes_of "02"), (bytes_of "29"). repeat split; by repeat constructor. }
  split; [by vm_compute|]. split; [|split; [done|split; [by right; left|done]]].
  left. exists 82800000000, (bytes_of "23:00"), (-18000000000), (bytes_of "-05:00"). split; [|split; [|by vm_compute]].
  - apply (clock_hm 23 0 (bytes_of "23") (bytes_of "00")); by repeat constructor.
  - apply (zone_minus 18000000000 (bytes_of "05:00")); [|done].
    apply (clock_hm 5 0 (bytes_of "05") (bytes_of "00")); by repeat constructor.
Qed.

(** texts of times: the days are dropped *)
Theorem C84_read_time_partial ca checks objects us s : time_text us s → 0 <= us →
  convert ca checks objects KTime (CStr s) = Ok (CTime (us mod us_per_day)).
Proof. exact (read_time ca checks objects us s). Qed.
Print Assumptions C84_read_time_partial.

Example C84_read_time_met : time_text 108000000000 (bytes_of "23:00-07:00") ∧ 108000000000 mod us_per_day = 21600000000.
Proof.
  split; [|by vm_compute].
  left. exists 82800000000, (bytes_of "23:00"), (-25200000000), (bytes_of "-07:00"). split; [|split; [|by vm_compute]].
  - apply (clock_hm 23 0 (bytes_of "23") (bytes_of "00")); by repeat constructor.
  - apply (zone_minus 25200000000 (bytes_of "07:00")); [|done].
    apply (clock_hm 7 0 (bytes_of "07") (bytes_of "00")); by repeat constructor.
Qed.

(** texts of whole numbers are rounded to 53 bits; up to 2^53 this is the number *)
Theorem C84_read_int_partial val ca : cast_floats val ca → ∀ checks objects n s, whole_text n s →
  convert ca checks objects KInt (CStr s) = Ok (CInt (qtrunc (fl (inject_Z n)))) ∧
  (- 2 ^ 53 <= n <= 2 ^ 53 → convert ca checks objects KInt (CStr s) = Ok (CInt n)).
Proof. intros Hf checks objects n s H. exact (conj (read_int val ca Hf checks objects n s H) (read_int_exact val ca Hf checks objects n s H)). Qed.
Print Assumptions C84_read_int_partial.

Example C84_read_int_met : whole_text (-12) (bytes_of "-0012").
Proof. exists (bytes_of "0012"), 12. split; [|by right]. split; [done|]. split; [by repeat constructor|done]. Qed.
