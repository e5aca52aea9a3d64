(** C88 and C89: the types of texts by [DataTypes.guess] and [DataTypes.infer]. *)
From Coq Require Import String.
From Verif.Spec Require Import PyTexts.
From Verif.Proof Require Import PyInferProofs PyKinds3 PyIso PyMoments PyGuessCases.
From Verif.Model Require Import PyInfer.
Local Open Scope string_scope.
Local Open Scope list_scope.
Local Open Scope Z_scope.

(** For the examples: [fromisoformat] of Python 3.7, floats 1.5 (number 15) and infinity (number 99). *)
Definition lib37 : py_lib := {|
  iso_date := iso37_date; iso_datetime := iso37_datetime; iso_time := iso37_time;
  float_read := λ s, if bool_decide (s = bytes_of "1.5") then Some 15 else None;
  float_show := λ x, bytes_of "1.5";
  float_format := λ k x, bytes_of "1.5";
  float_int := λ x, if x =? 99 then Err OtherError else Ok 1;
  float_is_int := λ n x, false;
  float_of_int := λ n, Ok 15;
  odd_micro := λ s, if bool_decide (s = bytes_of "1e999") then Err OtherError else Ok 0;
  show := λ v, bytes_of "?" |}.
Definition lawful (lib : py_lib) : Prop := iso_law (iso_date lib) (iso_datetime lib) (iso_time lib).
Example lib37_lawful : lawful lib37.
Proof. exact iso37_law. Qed.
(** the texts of a kind *)
Definition of_kind (lib : py_lib) := plain_text (float_read lib) (float_format lib).
Definition column_of_kind (lib : py_lib) := plain_column (float_read lib) (float_format lib).

(** C88: [guess] gives the texts of a column values of one type, the narrowest which reads them all: equal
    texts become equal values, dates stay dates, and no column of values raises.  False in general. *)

(** Equal texts become different values: a text of any other type, two words, and the text again. *)
Theorem C88_order_refuted lib T s w a b : lawful lib →
  of_kind lib T s w → T ≠ KStr → of_kind lib KStr a (CStr a) → of_kind lib KStr b (CStr b) →
  guess lib [CStr s; CStr a; CStr b; CStr s] = Ok [w; CStr a; CStr b; CStr s].
Proof. intros law. exact (guess_order lib law T s w a b). Qed.
Example C88_order_case : guess lib37 (map (λ s, CStr (bytes_of s)) ["12"; "a"; "b"; "12"])
  = Ok [CInt 12; CStr (bytes_of "a"); CStr (bytes_of "b"); CStr (bytes_of "12")].
Proof. by vm_compute. Qed.
Print Assumptions C88_order_refuted.

(** No date is left: columns of dates, as values or as ISO texts, become dates with a time. *)
Theorem C88_date_refuted lib : lawful lib →
  (∀ ds, guess lib (map CDate ds) = Ok (map (λ d, CDateTime d 0) ds)) ∧
  (∀ vs, Forall (λ p, iso_day p.1 p.2 ∧ python_date p.1) vs →
     guess lib (map (λ p, CStr p.2) vs) = Ok (map (λ p, CDateTime p.1 0) vs)).
Proof. intros law. exact (conj (guess_days lib) (guess_iso lib law)). Qed.
Example C88_date_case : guess lib37 [CStr (bytes_of "2020-02-29"); CDate (Ymd 2021 1 1)]
  = Ok [CDateTime (Ymd 2020 2 29) 0; CDateTime (Ymd 2021 1 1) 0].
Proof. by vm_compute. Qed.
Print Assumptions C88_date_refuted.

(** An exception of [int(x)], other than ValueError and TypeError, ends it: the OverflowError of an
    infinite float, and of a text with the fraction of a second [.1e999]. *)
Theorem C88_raises_refuted lib e vs : lawful lib → e ≠ ValueError → e ≠ TypeError →
  (∀ x, float_int lib x = Err e → guess lib (CFloat x :: vs) = Err e) ∧
  (odd_micro lib (bytes_of "1e999") = Err e → guess lib (CStr (bytes_of "2020/01/31 12:00:00.1e999") :: vs) = Err e).
Proof.
  intros law H1 H2. exact (conj (λ x H, guess_float_raises lib x e vs H H1 H2) (λ H, guess_text_raises lib law e vs H H1 H2)).
Qed.
Example C88_raises_case : guess lib37 [CFloat 99] = Err OtherError ∧
  guess lib37 [CStr (bytes_of "2020/01/31 12:00:00.1e999"); CStr (bytes_of "a")] = Err OtherError.
Proof. by vm_compute. Qed.
Print Assumptions C88_raises_refuted.

(** Every value is one which some type reads from the text of its place. *)
Theorem C88_each_partial lib vs ws : guess lib vs = Ok ws →
  Forall2 (λ v w, ∃ t, t ∈ types ∧ infer lib v t = Ok w) vs ws.
Proof. exact (guess_each lib vs ws). Qed.
Print Assumptions C88_each_partial.

(** A column of texts which can only be of one kind, with missing values: these values, in any order.
    Missing: texts of two kinds, several ways to write one kind. *)
Theorem C88_uniform_partial lib T vs ws : lawful lib → column_of_kind lib T vs ws → T ≠ KNone → guess lib vs = Ok ws.
Proof. intros law. exact (guess_plain lib law T vs ws). Qed.
Example C88_uniform_case : column_of_kind lib37 KDate
    [CStr (bytes_of "29/2/2020"); CNone; CStr (bytes_of "#N/A"); CStr (bytes_of "2021/01/31")]
    [CDate (Ymd 2020 2 29); CNone; CNone; CDate (Ymd 2021 1 31)].
Proof.
  assert (∀ n s, s ≠ [] → forallb isDigit s = true → digits_value s = n → number n s) as N.
  { intros n s H1 H2 H3. split; [done|]. split; [|done]. apply list.Forall_forall. intros c Hc%elem_of_list_In.
    rewrite forallb_forall in H2. apply H2 in Hc. unfold isDigit in Hc. unfold digit. lia. }
  repeat apply List.Forall2_cons; [..|apply List.Forall2_nil].
  - right. eexists. split; [done|]. exists (Ymd 2020 2 29), true, 47. split.
    { exists (bytes_of "2020"), (bytes_of "2"), (bytes_of "29"). split; [split; [by apply N|done]|]. split; [by apply N|].
      split; [by apply N|]. done. }
    split; [unfold date_separator; lia|]. split; [vm_compute; intuition congruence|]. done.
  - left. split; [by left|done].
  - left. split; [right; eexists; split; [done|]; apply (bool_decide_unpack _); vm_compute; exact I|done].
  - right. eexists. split; [done|]. exists (Ymd 2021 1 31), false, 47. split.
    { exists (bytes_of "2021"), (bytes_of "01"), (bytes_of "31"). split; [split; [by apply N|done]|]. split; [by apply N|].
      split; [by apply N|]. done. }
    split; [unfold date_separator; lia|]. split; [vm_compute; intuition congruence|]. done.
Qed.
Print Assumptions C88_uniform_partial.
Example C88_uniform_run : guess lib37
    [CStr (bytes_of "29/2/2020"); CNone; CStr (bytes_of "#N/A"); CStr (bytes_of "2021/01/31")]
  = Ok [CDate (Ymd 2020 2 29); CNone; CNone; CDate (Ymd 2021 1 31)].
Proof. by vm_compute. Qed.

(** C89: a text which writes a whole number, a date or a date with a time in one of the formats of
    tablite is read as that value, and no other text is.  False in general. *)

(** Whole numbers: what is an optional sign and digits without quotes, blanks and commas. *)
Theorem C89_int s n : infer_int s = Ok n ↔ signed_number n (bare s).
Proof. exact (infer_int_iff s n). Qed.
Example C89_int_case : infer_int (bytes_of """- 1,234""") = Ok (-1234) ∧ infer_int (bytes_of "1-2") = Err ValueError.
Proof. by vm_compute. Qed.
Print Assumptions C89_int.

(** So a comma before decimals is lost: 1,5 is 15. *)
Theorem C89_comma_refuted lib : lawful lib → guess lib [CStr (bytes_of "1,5")] = Ok [CInt 15].
Proof. exact (comma_lost lib). Qed.
Print Assumptions C89_comma_refuted.

(** Dates: what Python reads, and the dates of the calendar with blanks, hyphens, full stops or slashes, year or
    day first, or without any. *)
Theorem C89_date lib s d : infer_date lib s = Ok d ↔
  iso_date lib s = Some d ∨
  iso_date lib s = None ∧ python_date d ∧
    ((∃ day_first sep, date_separator sep ∧ brief_date day_first sep d s) ∨ compact_date d s).
Proof. exact (infer_date_iff lib s d). Qed.
Example C89_date_case : infer_date lib37 (bytes_of "29.2.2020") = Ok (Ymd 2020 2 29) ∧
  infer_date lib37 (bytes_of "20200229") = Ok (Ymd 2020 2 29) ∧ infer_date lib37 (bytes_of "2021 2 29") = Err ValueError.
Proof. by vm_compute. Qed.
Print Assumptions C89_date.

Lemma number_case k n s : length s = k → s ≠ [] → forallb isDigit s = true → digits_value s = n → number_of k n s.
Proof.
  intros L H1 H2 H3. split; [|done]. split; [done|]. split; [|done]. apply list.Forall_forall. intros c Hc%elem_of_list_In.
  rewrite forallb_forall in H2. apply H2 in Hc. unfold isDigit in Hc. unfold digit. lia.
Qed.
Lemma moment_case (day_first : bool) sep : date_separator sep →
  full_moment day_first sep (Ymd 1999 12 31) 86399123000
    ((if day_first then bytes_of "31" ++ [sep] ++ bytes_of "12" ++ [sep] ++ bytes_of "1999"
      else bytes_of "1999" ++ [sep] ++ bytes_of "12" ++ [sep] ++ bytes_of "31") ++ bytes_of " 23:59:59.123").
Proof.
  intros Hs. exists (bytes_of "1999"), (bytes_of "12"), (bytes_of "31"), 32, (bytes_of "23:59:59.123").
  do 3 (split; [by apply number_case|]). split; [vm_compute; intuition congruence|]. split; [done|]. split; [by left|].
  split; [|done]. split; [|done].
  apply (clock_milli 23 59 59 123 (bytes_of "23") (bytes_of "59") (bytes_of "59") (bytes_of "123")); by apply number_case.
Qed.
Lemma dots_case : full_moment true 46 (Ymd 1999 12 31) 86399000000 (bytes_of "31.12.1999 23:59:59").
Proof.
  exists (bytes_of "1999"), (bytes_of "12"), (bytes_of "31"), 32, (bytes_of "23:59:59").
  do 3 (split; [by apply number_case|]). split; [vm_compute; intuition congruence|].
  split; [unfold date_separator; lia|]. split; [by left|].
  split; [|done]. split; [|done]. apply (clock_hms 23 59 59 (bytes_of "23") (bytes_of "59") (bytes_of "59")); by apply number_case.
Qed.
Lemma compact_case : compact_moment (Ymd 1999 12 31) 86340000000 (bytes_of "19991231T2359").
Proof.
  exists (bytes_of "1999"), (bytes_of "12"), (bytes_of "31"), [84], (bytes_of "2359").
  do 3 (split; [by apply number_case|]). split; [vm_compute; intuition congruence|]. split; [done|]. left. split; [by right|].
  split; [|done]. apply (compact_hm 23 59 (bytes_of "23") (bytes_of "59")); by apply number_case.
Qed.

(** Full stops between day, month and year: without a fraction of a second never read. *)
Theorem C89_dots_refuted lib day_first d us s : lawful lib →
  full_moment day_first 46 d us s → zlen s <= 19 → infer_datetime lib s = Err ValueError.
Proof. intros law. exact (dotted_never lib law day_first d us s). Qed.
Example C89_dots_case : full_moment true 46 (Ymd 1999 12 31) 86399000000 (bytes_of "31.12.1999 23:59:59") ∧
  infer_datetime lib37 (bytes_of "31.12.1999 23:59:59") = Err ValueError.
Proof. split; [exact dots_case|by vm_compute]. Qed.
Print Assumptions C89_dots_refuted.

(** Six decimals of a second: read through a float, 251 microseconds become 250. *)
Theorem C89_micro_refuted lib : lawful lib →
  infer_datetime lib (bytes_of "31/12/1999 23:59:59.000251") = Ok (Ymd 1999 12 31, 86399000250).
Proof. exact (micro_lost lib). Qed.
Print Assumptions C89_micro_refuted.

(** Blanks, hyphens or slashes and not six decimals: read exactly.  Missing: six decimals, full stops with
    three decimals, commas before decimals, and what else is read. *)
Theorem C89_moment_partial lib day_first sep d us s : lawful lib →
  full_moment day_first sep d us s → sep ≠ 46 → zlen s ≠ 26 → infer_datetime lib s = Ok (d, us).
Proof. intros law. exact (full_moment_read lib law day_first sep d us s). Qed.
Example C89_moment_case : full_moment true 32 (Ymd 1999 12 31) 86399123000 (bytes_of "31 12 1999 23:59:59.123") ∧
  infer_datetime lib37 (bytes_of "31 12 1999 23:59:59.123") = Ok (Ymd 1999 12 31, 86399123000).
Proof. split; [exact (moment_case true 32 (or_introl eq_refl))|by vm_compute]. Qed.
Print Assumptions C89_moment_partial.

(** Without separators, hours and minutes at least. *)
Theorem C89_compact_partial lib d us s : lawful lib → compact_moment d us s → infer_datetime lib s = Ok (d, us).
Proof. intros law. exact (compact_read lib law d us s). Qed.
Example C89_compact_case : compact_moment (Ymd 1999 12 31) 86340000000 (bytes_of "19991231T2359") ∧
  infer_datetime lib37 (bytes_of "19991231T2359") = Ok (Ymd 1999 12 31, 86340000000) ∧
  infer_datetime lib37 (bytes_of "19991231235959") = Ok (Ymd 1999 12 31, 86399000000).
Proof. split; [exact compact_case|by vm_compute]. Qed.
Print Assumptions C89_compact_partial.
