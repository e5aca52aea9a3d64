(** C90: the summary statistics of a column. *)
From Coq Require Import String.
From Verif.Spec Require Import Statistics.
From Verif.Model Require Import PicklePage.
From Verif.Proof Require Import SummaryProofs SummaryTypes.
From Verif.Model Require Import Summary.
Local Open Scope string_scope.
Local Open Scope list_scope.
Local Open Scope Z_scope.

(** For the examples: no root, and timestamps of January 2024 by the day. *)
Definition no_root : Q → Q := λ x, x.
Definition january (d : ymd) (us : Z) : Q := (inject_Z (dd d * 86400) + inject_Z us / inject_Z 1000000)%Q.
Definition of_january (x : Q) : res (ymd * Z) :=
  let s := Qfloor x in Ok (Ymd 2024 1 (s / 86400), (s mod 86400) * 1000000).

(** C90: [summary_statistics] summarises the values of the most frequent type: minimum, maximum and mode are values of
    the column, the quartiles have a quarter of the values on their side, and every column that
    is not empty has a summary.  True of numbers, texts and booleans. *)

(** The type is one with most values, the summary is that of its values alone. *)
Theorem C90_type root stamp unstamp h r : Forall (λ e, 0 < e.2) h → summary_statistics root stamp unstamp h = Ok (Some r) →
  (∀ t, type_count t h <= type_count (r_type r) h) ∧ r_distinct r = zlen h ∧ r_histogram r = h ∧
  ∃ r', summary_statistics root stamp unstamp (filter (λ e, vtype_of e.1 = r_type r) h) = Ok (Some r') ∧ r_summary r' = r_summary r.
Proof. exact (statistics_filter root stamp unstamp h r). Qed.
Example C90_type_case :
  let h := [(IntV 5, 2); (StrV (bytes_of "a"), 1); (NoneV, 1); (StrV (bytes_of "bcd"), 2)] in
  ∃ r, summary_statistics no_root january of_january h = Ok (Some r) ∧ r_type r = StrT ∧ r_distinct r = 4 ∧
    s_max (r_summary r) = Chars (inject_Z 3) ∧ s_mode (r_summary r) = Val (StrV (bytes_of "bcd")).
Proof. eexists. split; [vm_compute; reflexivity|]. repeat split. Qed.
Print Assumptions C90_type.

(** Numbers: all columns have a summary, with the quartiles. *)
Theorem C90_numbers root stamp unstamp t h : t ∈ [IntT; FloatT] → column_of t h → ∃ mn mx me md sd mo lo hi iq sm,
  summary_statistics root stamp unstamp h
  = Ok (Some (Report (Summary (Num mn) (Num mx) (Num me) (Num md) (Num sd) (Num mo) (Num lo) (Num hi) (Num iq) (Num sm)) (zlen h) t h)) ∧
  let xs := map measure (spelled h) in
  (mn ∈ xs ∧ ∀ x, x ∈ xs → (mn <= x)%Q) ∧ (mx ∈ xs ∧ ∀ x, x ∈ xs → (x <= mx)%Q) ∧ mo ∈ xs ∧ figures root xs md me sd sm lo hi iq.
Proof. exact (numbers_summary root stamp unstamp t h). Qed.
Example C90_numbers_case :
  let h := [(IntV 9, 1); (IntV 1, 3); (IntV 4, 4)] in
  ∃ r, summary_statistics no_root january of_january h = Ok (Some r) ∧ column_of IntT h ∧
    s_min (r_summary r) = Num 1 ∧ s_iqr_low (r_summary r) = Num 1 ∧ s_iqr_high (r_summary r) = Num 4 ∧ s_iqr (r_summary r) = Num 3.
Proof. eexists. split; [vm_compute; reflexivity|]. split; [split; [done|repeat constructor]|]. repeat split. Qed.
Print Assumptions C90_numbers.

(** Texts: lengths, and the mode is a most frequent text. *)
Theorem C90_text root stamp unstamp h : column_of StrT h → ∃ mn mx me md sd mo lo hi iq sm,
  summary_statistics root stamp unstamp h
  = Ok (Some (Report (Summary (Chars mn) (Chars mx) (Chars me) (Chars md) (Chars sd) (Val mo) (Chars lo) (Chars hi) (Chars iq) (Chars sm)) (zlen h) StrT h)) ∧
  let xs := map measure (spelled h) in
  (mn ∈ xs ∧ ∀ x, x ∈ xs → (mn <= x)%Q) ∧ (mx ∈ xs ∧ ∀ x, x ∈ xs → (x <= mx)%Q) ∧ most_frequent mo h ∧ figures root xs md me sd sm lo hi iq.
Proof. exact (text_summary root stamp unstamp h). Qed.
Example C90_text_case :
  let h := [(StrV (bytes_of "a"), 1); (StrV (bytes_of "bcd"), 2); (StrV (bytes_of "ef"), 2)] in
  ∃ r, summary_statistics no_root january of_january h = Ok (Some r) ∧ column_of StrT h ∧
    s_min (r_summary r) = Chars 1 ∧ s_max (r_summary r) = Chars 3 ∧ s_mode (r_summary r) = Val (StrV (bytes_of "bcd")).
Proof. eexists. split; [vm_compute; reflexivity|]. split; [split; [done|repeat constructor]|]. repeat split. Qed.
Print Assumptions C90_text.

(** Booleans: the minimum is False if False is there, the maximum True if True is, the mode one of both. *)
Theorem C90_bool root stamp unstamp h : column_of BoolT h → ∃ r mn mx mo,
  summary_statistics root stamp unstamp h = Ok (Some r) ∧
  s_min (r_summary r) = Val (BoolV mn) ∧ s_max (r_summary r) = Val (BoolV mx) ∧ s_mode (r_summary r) = Val (BoolV mo) ∧
  (mn = true ↔ BoolV false ∉ h.*1) ∧ (mx = false ↔ BoolV true ∉ h.*1) ∧ BoolV mo ∈ h.*1 ∧
  ∃ md me sd sm lo hi iq, figures root (map measure (spelled h)) md me sd sm lo hi iq ∧
  s_median (r_summary r) = (if Qeq_bool md 1 then Val (BoolV true) else if Qeq_bool md 0 then Val (BoolV false) else Num md) ∧
  s_mean (r_summary r) = Num me ∧ s_stdev (r_summary r) = Num sd ∧ s_sum (r_summary r) = Num sm ∧
  s_iqr_low (r_summary r) = Num lo ∧ s_iqr_high (r_summary r) = Num hi ∧ s_iqr (r_summary r) = Num iq.
Proof. exact (bool_values root stamp unstamp h). Qed.
Example C90_bool_case :
  let h := [(BoolV true, 2); (BoolV false, 1)] in
  ∃ r, summary_statistics no_root january of_january h = Ok (Some r) ∧ column_of BoolT h ∧
    s_min (r_summary r) = Val (BoolV false) ∧ s_mode (r_summary r) = Val (BoolV true).
Proof. eexists. split; [vm_compute; reflexivity|]. split; [split; [done|repeat constructor]|]. repeat split. Qed.
Print Assumptions C90_bool.

(** No column of timedeltas has a summary, nor one of a type without a method. *)
Theorem C90_delta_refuted root stamp unstamp h : column_of DeltaT h → summary_statistics root stamp unstamp h = Err AttributeError.
Proof. exact (delta_fails root stamp unstamp h). Qed.
Example C90_delta_case : column_of DeltaT [(DeltaV 1000000, 3)].
Proof. split; [done|repeat constructor]. Qed.
Print Assumptions C90_delta_refuted.

Theorem C90_other_refuted root stamp unstamp h : column_of OtherT h → summary_statistics root stamp unstamp h = Err TypeError.
Proof. exact (other_fails root stamp unstamp h). Qed.
Example C90_other_case : column_of OtherT [(OtherV 7, 1)].
Proof. split; [done|repeat constructor]. Qed.
Print Assumptions C90_other_refuted.

(** The minimum, maximum and mode of times are not values of the column: 251 microseconds become 250. *)
Theorem C90_time_refuted root stamp unstamp : ∃ h r, column_of TimeT h ∧ summary_statistics root stamp unstamp h = Ok (Some r) ∧
  h.*1 = [TimeV 251] ∧ s_min (r_summary r) = Val (TimeV 250) ∧ s_max (r_summary r) = Val (TimeV 250) ∧ s_mode (r_summary r) = Val (TimeV 250).
Proof. exact (time_lost root stamp unstamp). Qed.
Print Assumptions C90_time_refuted.

(** Times of whole seconds.  Missing: that there is a summary (mean and median are times of the day), and the quartiles,
    which stay numbers. *)
Theorem C90_time_partial root stamp unstamp h r : column_of TimeT h →
  (∀ us, TimeV us ∈ h.*1 → 0 <= us < 86400000000 ∧ us mod 1000000 = 0) → summary_statistics root stamp unstamp h = Ok (Some r) →
  ∃ mn mx mo, s_min (r_summary r) = Val (TimeV mn) ∧ s_max (r_summary r) = Val (TimeV mx) ∧ s_mode (r_summary r) = Val (TimeV mo) ∧
  (TimeV mn ∈ h.*1 ∧ ∀ x, TimeV x ∈ h.*1 → mn <= x) ∧ (TimeV mx ∈ h.*1 ∧ ∀ x, TimeV x ∈ h.*1 → x <= mx) ∧ TimeV mo ∈ h.*1 ∧
  ∃ md me sd sm lo hi iq, figures root (map (moment_number stamp) (spelled h)) md me sd sm lo hi iq ∧
  time_of md = Ok (s_median (r_summary r)) ∧ time_of me = Ok (s_mean (r_summary r)) ∧ s_iqr_low (r_summary r) = Num lo ∧ s_iqr_high (r_summary r) = Num hi ∧
  s_stdev (r_summary r) = Seconds sd ∧ s_sum (r_summary r) = Seconds sm ∧ s_iqr (r_summary r) = Seconds iq.
Proof. exact (time_values root stamp unstamp h r). Qed.
Example C90_time_case :
  let h := [(TimeV 7205000000, 1); (TimeV 3600000000, 2)] in
  ∃ r, summary_statistics no_root january of_january h = Ok (Some r) ∧ column_of TimeT h ∧
    s_min (r_summary r) = Val (TimeV 3600000000) ∧ s_max (r_summary r) = Val (TimeV 7205000000).
Proof. eexists. split; [vm_compute; reflexivity|]. split; [split; [done|repeat constructor]|]. repeat split. Qed.
Print Assumptions C90_time_partial.

(** Dates whose midnight the local time has (a clock put forward at midnight has none).  Missing: that there is a summary
    (mean and median can be read back), and the quartiles, which stay numbers. *)
Theorem C90_date_partial root stamp unstamp h r : (∀ d, DateV d ∈ h.*1 → unstamp (stamp d 0) = Ok (d, 0)) → column_of DateT h →
  summary_statistics root stamp unstamp h = Ok (Some r) →
  ∃ mn mx mo, s_min (r_summary r) = Val (DateV mn) ∧ s_max (r_summary r) = Val (DateV mx) ∧ s_mode (r_summary r) = Val (DateV mo) ∧
  (DateV mn ∈ h.*1 ∧ ∀ x, DateV x ∈ h.*1 → (stamp mn 0%Z <= stamp x 0%Z)%Q) ∧ (DateV mx ∈ h.*1 ∧ ∀ x, DateV x ∈ h.*1 → (stamp x 0%Z <= stamp mx 0%Z)%Q) ∧
  DateV mo ∈ h.*1 ∧
  ∃ md me sd sm lo hi iq d1 d2, figures root (map (moment_number stamp) (spelled h)) md me sd sm lo hi iq ∧
  unstamp md = Ok d1 ∧ s_median (r_summary r) = Val (DateV d1.1) ∧ unstamp me = Ok d2 ∧ s_mean (r_summary r) = Val (DateV d2.1) ∧
  s_iqr_low (r_summary r) = Num lo ∧ s_iqr_high (r_summary r) = Num hi ∧
  s_stdev (r_summary r) = Days (sd / 86400) ∧ s_sum (r_summary r) = Days (sm / 86400) ∧ s_iqr (r_summary r) = Days (iq / 86400).
Proof. exact (date_values root stamp unstamp h r). Qed.
Example C90_date_case :
  let h := [(DateV (Ymd 2024 1 9), 1); (DateV (Ymd 2024 1 2), 2)] in
  ∃ r, summary_statistics no_root january of_january h = Ok (Some r) ∧ column_of DateT h ∧
    (∀ d, DateV d ∈ h.*1 → of_january (january d 0) = Ok (d, 0)) ∧
    s_min (r_summary r) = Val (DateV (Ymd 2024 1 2)) ∧ s_max (r_summary r) = Val (DateV (Ymd 2024 1 9)).
Proof.
  eexists. split; [vm_compute; reflexivity|]. split; [split; [done|repeat constructor]|]. split; [|repeat split].
  intros d. cbn. rewrite !elem_of_cons, elem_of_nil. by intros [[= ->]|[[= ->]|[]]].
Qed.
Print Assumptions C90_date_partial.

Theorem C90_datetime_partial root stamp unstamp h r : (∀ d us, DateTimeV d us ∈ h.*1 → unstamp (stamp d us) = Ok (d, us)) → column_of DateTimeT h →
  summary_statistics root stamp unstamp h = Ok (Some r) →
  ∃ mn mnu mx mxu mo mou, s_min (r_summary r) = Val (DateTimeV mn mnu) ∧ s_max (r_summary r) = Val (DateTimeV mx mxu) ∧ s_mode (r_summary r) = Val (DateTimeV mo mou) ∧
  (DateTimeV mn mnu ∈ h.*1 ∧ ∀ x u, DateTimeV x u ∈ h.*1 → (stamp mn mnu <= stamp x u)%Q) ∧
  (DateTimeV mx mxu ∈ h.*1 ∧ ∀ x u, DateTimeV x u ∈ h.*1 → (stamp x u <= stamp mx mxu)%Q) ∧ DateTimeV mo mou ∈ h.*1 ∧
  ∃ md me sd sm lo hi iq d1 d2 d3 d4, figures root (map (moment_number stamp) (spelled h)) md me sd sm lo hi iq ∧
  unstamp md = Ok d1 ∧ s_median (r_summary r) = Val (DateTimeV d1.1 d1.2) ∧ unstamp me = Ok d2 ∧ s_mean (r_summary r) = Val (DateTimeV d2.1 d2.2) ∧
  unstamp lo = Ok d3 ∧ s_iqr_low (r_summary r) = Val (DateTimeV d3.1 d3.2) ∧ unstamp hi = Ok d4 ∧ s_iqr_high (r_summary r) = Val (DateTimeV d4.1 d4.2) ∧
  s_stdev (r_summary r) = Days (sd / 86400) ∧ s_sum (r_summary r) = Days (sm / 86400) ∧ s_iqr (r_summary r) = Days (iq / 86400).
Proof. exact (datetime_values root stamp unstamp h r). Qed.
Example C90_datetime_case :
  let h := [(DateTimeV (Ymd 2024 1 9) 5000000, 1); (DateTimeV (Ymd 2024 1 2) 0, 2)] in
  ∃ r, summary_statistics no_root january of_january h = Ok (Some r) ∧ column_of DateTimeT h ∧
    (∀ d us, DateTimeV d us ∈ h.*1 → of_january (january d us) = Ok (d, us)) ∧
    s_min (r_summary r) = Val (DateTimeV (Ymd 2024 1 2) 0) ∧ s_max (r_summary r) = Val (DateTimeV (Ymd 2024 1 9) 5000000).
Proof.
  eexists. split; [vm_compute; reflexivity|]. split; [split; [done|repeat constructor]|]. split; [|repeat split].
  intros d us. cbn. rewrite !elem_of_cons, elem_of_nil. by intros [[= -> ->]|[[= -> ->]|[]]].
Qed.
Print Assumptions C90_datetime_partial.
