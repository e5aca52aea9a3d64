(** C79, C80: pages of texts imported with guessed types (nimlite/ranking.nim,
    nimlite/funcs/text_reader/paging.nim). *)
From Coq Require Import String.
From Verif.Spec Require Import GuessedPage.
From Verif.Proof Require Import GuessProofs GuessKinds GuessNumbers GuessWords.
Local Open Scope string_scope.
Local Open Scope list_scope.
Local Open Scope Z_scope.

(** ** C79: every cell of the page is a reading of its text *)

(** The full claim: importing a page succeeds, and every cell is a reading of its text. *)
Theorem C79_refuted fa :
  ¬ ∀ col, col ≠ [] → ∃ p cs, import_page fa false col = Ok (p, cs) ∧ page_of_readings (read fa false) col p cs.
Proof.
  intros H.
  destruct (H (map (λ s, Some (bytes_of s)) ["20200101"; "20200101"; "20200101"; ""; ""; "5"]) ltac:(done))
    as (p & cs & E & _).
  assert (import_page fa false (map (λ s, Some (bytes_of s)) ["20200101"; "20200101"; "20200101"; ""; ""; "5"])
          = Err OtherError) as F by (by vm_compute).
  rewrite F in E. discriminate E.
Qed.
Print Assumptions C79_refuted.

(** It fails for compact dates among other things, for a text longer than those without
    a type in a page of texts, for times the reader raises on, for no rows, and when every
    type occurs. *)
Theorem C79_cases_refuted fa :
  let page := λ l, import_page fa false (map (λ s, Some (bytes_of s)) l) in
  page ["5"; "7"; "20200101ab"] = Err OtherError
  ∧ page ["12345"; "N/A"; "N/A"] = Err OtherError
  ∧ page ["08:00-16"] = Err OtherError
  ∧ page [] = Err OtherError
  ∧ page [""; "true"; "20200101"; "5"; "1,234"; "1.234"; "1.5"; "1,234.5"; "1.234,5"; "2020-01-01T10:00";
          "01/31/2020T10:00"; "2020-01-01"; "01/31/2020"; "10:00"; "abc"] = Err OtherError.
Proof. by vm_compute. Qed.
Print Assumptions C79_cases_refuted.

Theorem C79_partial fa checks col :
  let texts := map field_text col in
  col ≠ [] → (∀ s, s ∈ texts → plain (read fa checks) s) → some_type_unused (read fa checks) texts →
  short_apart (read fa checks) texts → longest_untyped (read fa checks) texts →
  ∃ p cs, import_page fa checks col = Ok (p, cs) ∧ page_of_readings (read fa checks) col p cs.
Proof. exact (import_ok fa checks col). Qed.
Print Assumptions C79_partial.

Example C79_met fa :
  let col := [Some (bytes_of "2020-01-31"); Some (bytes_of "5"); None; Some (bytes_of "hello world")] in
  let texts := map field_text col in
  (∀ s, s ∈ texts → plain (read fa false) s) ∧ some_type_unused (read fa false) texts ∧
  short_apart (read fa false) texts ∧ longest_untyped (read fa false) texts ∧
  import_page fa false col = Ok (PG_OBJECT, [CDate (Ymd 2020 1 31); CInt 5; CNone; CStr (bytes_of "hello world")]).
Proof.
  intros col texts. split_and!.
  - intros s Hs. repeat (apply elem_of_cons in Hs as [->|Hs]; [intros [] e H; vm_compute in H; congruence|]).
    by apply elem_of_nil in Hs.
  - exists DT_TIME. intros s Hs [c H].
    repeat (apply elem_of_cons in Hs as [->|Hs]; [by vm_compute in H|]). by apply elem_of_nil in Hs.
  - left. intros s Hs [c H].
    repeat (apply elem_of_cons in Hs as [->|Hs]; [by vm_compute in H|]). by apply elem_of_nil in Hs.
  - right. exists (bytes_of "hello world"). split_and!.
    + apply (bool_decide_unpack _). by vm_compute.
    + intros (t & Ht & c & H). destruct t; by vm_compute in H.
    + intros s Hs. repeat (apply elem_of_cons in Hs as [->|Hs]; [by apply Z.leb_le|]). by apply elem_of_nil in Hs.
  - by vm_compute.
Qed.

(** ** C80: columns of one kind come back as what was written *)

(** The full claim fails for dates with full stops or blanks (read as numbers), for
    decimals of three places, and for whole numbers that look like a date; an empty
    field of a column of words is None or the empty text, as the order of the rows wants
    it: once a text has no type before others have one, everything is a text. *)
Theorem C80_refuted fa :
  let page := λ l, import_page fa false (map (λ s, Some (bytes_of s)) l) in
  (∃ b, page ["31.12.2020"] = Ok (PG_FLOAT, [CFloat b]))
  ∧ page ["31 12 2020"] = Ok (PG_INT, [CInt 31122020])
  ∧ page ["1.234"] = Ok (PG_INT, [CInt 1234])
  ∧ page ["1912051234"] = Ok (PG_OBJECT, [CDate (Ymd 1912 5 12)])
  ∧ page ["a"; ""; ""] = Ok (PG_UNICODE, [CStr (bytes_of "a"); CStr []; CStr []])
  ∧ page [""; ""; "a"] = Ok (PG_OBJECT, [CNone; CNone; CStr (bytes_of "a")]).
Proof. vm_compute. split; [by eexists|done]. Qed.
Print Assumptions C80_refuted.

Theorem C80_dates_partial fa checks col cells : col ≠ [] →
  with_gaps (λ s c, ∃ style sep d, date_text style sep d s ∧ zlen s <= 10 ∧ iso_or_day_first style sep ∧
                      valid_ymd d ∧ ¬ late_december style d ∧ c = CDate d) col cells →
  import_page fa checks col = Ok (PG_OBJECT, cells).
Proof. exact (import_dates fa checks col cells). Qed.
Print Assumptions C80_dates_partial.

Theorem C80_compact_dates fa checks col cells : col ≠ [] →
  with_gaps (λ s c, ∃ sep d, date_text Compact sep d s ∧ valid_ymd d ∧ c = CDate d) col cells →
  import_page fa checks col = Ok (PG_OBJECT, cells).
Proof. exact (import_compact fa checks col cells). Qed.
Print Assumptions C80_compact_dates.

Theorem C80_moments_partial fa checks col cells : col ≠ [] →
  with_gaps (λ s c, ∃ style sep d us d' us', datetime_text style sep d us s ∧ iso_or_day_first style sep ∧
                      valid_ymd d ∧ ¬ late_december style d ∧ moment d us d' us' ∧ c = CDateTime d' us') col cells →
  import_page fa checks col = Ok (PG_OBJECT, cells).
Proof. exact (import_moments fa checks col cells). Qed.
Print Assumptions C80_moments_partial.

Theorem C80_times_partial fa checks col cells : col ≠ [] →
  with_gaps (λ s c, ∃ us t off z, clock us t ∧ zone off z ∧ s = t ++ z ∧ c = CTime (us - off)) col cells →
  import_page fa checks col = Ok (PG_OBJECT, cells).
Proof. exact (import_times fa checks col cells). Qed.
Print Assumptions C80_times_partial.

Theorem C80_bools fa checks col cells : col ≠ [] →
  with_gaps (λ s c, ∃ b, bool_text b s ∧ c = CBool b) col cells →
  import_page fa checks col = Ok (PG_OBJECT, cells).
Proof. exact (import_bools fa checks col cells). Qed.
Print Assumptions C80_bools.

Theorem C80_words_partial fa checks texts : texts ≠ [] → Forall plain_word texts →
  import_page fa checks (map Some texts) = Ok (PG_UNICODE, map CStr texts).
Proof. exact (import_words fa checks texts). Qed.
Print Assumptions C80_words_partial.

(** whole numbers, not all of them like a date *)
Theorem C80_ints_partial fa texts ns :
  Forall2 (λ s n, whole_text n s ∧ - 2 ^ 63 < n < 2 ^ 63) texts ns → (∃ s, s ∈ texts ∧ not_compact s) →
  import_page fa false (map Some texts) = Ok (PG_INT, map CInt ns).
Proof. exact (import_ints fa texts ns). Qed.
Print Assumptions C80_ints_partial.

(** the gaps are kept if no number looks like a date *)
Theorem C80_ints_gaps_partial fa col cells : (∃ f, f ∈ col ∧ blank f) →
  with_gaps (λ s c, int_value s c ∧ not_compact s) col cells →
  import_page fa false col = Ok (PG_OBJECT, cells).
Proof. exact (import_ints_gaps fa col cells). Qed.
Print Assumptions C80_ints_gaps_partial.

(** decimals, and whole numbers among them *)
Theorem C80_decimals_partial fa texts :
  (∀ s, s ∈ texts → (∃ n, whole_text n s ∧ - 2 ^ 63 < n < 2 ^ 63) ∨ plain_decimal s) →
  (∃ s, s ∈ texts ∧ plain_decimal s) →
  import_page fa false (map Some texts) = Ok (PG_FLOAT, map (λ s, CFloat (f_parse fa s)) texts).
Proof. exact (import_floats fa texts). Qed.
Print Assumptions C80_decimals_partial.

Theorem C80_decimals_gaps_partial fa col cells : (∃ f, f ∈ col ∧ blank f) →
  with_gaps (λ s c, plain_decimal s ∧ c = CFloat (f_parse fa s)) col cells →
  import_page fa false col = Ok (PG_OBJECT, cells).
Proof. exact (import_decimals_gaps fa col cells). Qed.
Print Assumptions C80_decimals_gaps_partial.

Example C80_dates_met fa :
  import_page fa false [Some (bytes_of "2020-01-31"); None; Some (bytes_of "1/2/2020")]
  = Ok (PG_OBJECT, [CDate (Ymd 2020 1 31); CNone; CDate (Ymd 2020 2 1)]).
Proof.
  apply C80_dates_partial; [done|]. repeat apply List.Forall2_cons; try apply List.Forall2_nil.
  - right. exists (bytes_of "2020-01-31"). split; [done|]. exists Iso, 45, (Ymd 2020 1 31).
    split. { exists (bytes_of "2020"), (bytes_of "01"), (bytes_of "31"). repeat split; by repeat constructor. }
    split; [by vm_compute|]. split; [split; by left|]. split; [by vm_compute|]. split; [by intros [[|] _]|done].
  - left. split; [by left|done].
  - right. exists (bytes_of "1/2/2020"). split; [done|]. exists DayFirst, 47, (Ymd 2020 2 1).
    split. { exists (bytes_of "2020"), (bytes_of "2"), (bytes_of "1"). repeat split; by repeat constructor. }
    split; [by vm_compute|]. split; [split; by right|]. split; [by vm_compute|]. split; [by intros (_ & ? & _)|done].
Qed.

Example C80_compact_met fa :
  import_page fa false [Some (bytes_of "20200131"); Some []] = Ok (PG_OBJECT, [CDate (Ymd 2020 1 31); CNone]).
Proof.
  apply C80_compact_dates; [done|]. repeat apply List.Forall2_cons; try apply List.Forall2_nil.
  - right. exists (bytes_of "20200131"). split; [done|]. exists 0, (Ymd 2020 1 31).
    split; [|split; [by vm_compute|done]].
    exists (bytes_of "2020"), (bytes_of "01"), (bytes_of "31"). repeat split; by repeat constructor.
  - left. split; [by right|done].
Qed.

Example C80_moments_met fa :
  import_page fa false [Some (bytes_of "2020-02-29T23:00-05:00")] = Ok (PG_OBJECT, [CDateTime (Ymd 2020 3 1) 14400000000]).
Proof.
  apply C80_moments_partial; [done|]. repeat apply List.Forall2_cons; try apply List.Forall2_nil. right. exists (bytes_of "2020-02-29T23:00-05:00").
  split; [done|]. exists Iso, 45, (Ymd 2020 2 29), 100800000000, (Ymd 2020 3 1), 14400000000. split.
  - exists (bytes_of "2020-02-29"), (bytes_of "T"), (bytes_of "23:00-05:00").
    split. { exists (bytes_of "2020"), (bytes_of "02"), (bytes_of "29"). repeat split; by repeat constructor. }
    split; [by vm_compute|]. split.
    + left. exists 82800000000, (bytes_of "23:00"), (-18000000000), (bytes_of "-05:00").
      split; [|split; [|by vm_compute]].
      * apply (clock_hm 23 0 (bytes_of "23") (bytes_of "00")); by repeat constructor.
      * apply (zone_minus 18000000000 (bytes_of "05:00")); [|done].
        apply (clock_hm 5 0 (bytes_of "05") (bytes_of "00")); by repeat constructor.
    + split; [done|]. split; [by right; left|done].
  - split; [split; by left|]. split; [by vm_compute|]. split; [by intros [[|] _]|]. by vm_compute.
Qed.

Example C80_times_met fa :
  import_page fa false [Some (bytes_of "12:30"); None] = Ok (PG_OBJECT, [CTime 45000000000; CNone]).
Proof.
  apply C80_times_partial; [done|]. repeat apply List.Forall2_cons; try apply List.Forall2_nil.
  - right. exists (bytes_of "12:30"). split; [done|]. exists 45000000000, (bytes_of "12:30"), 0, [].
    split; [|split; [constructor|done]].
    apply (clock_hm 12 30 (bytes_of "12") (bytes_of "30")); by repeat constructor.
  - left. split; [by left|done].
Qed.

Example C80_bools_met fa :
  import_page fa false [Some (bytes_of "True"); Some (bytes_of "FALSE"); None] = Ok (PG_OBJECT, [CBool true; CBool false; CNone]).
Proof.
  apply C80_bools; [done|]. repeat apply List.Forall2_cons; try apply List.Forall2_nil.
  - right. exists (bytes_of "True"). split; [done|]. by exists true.
  - right. exists (bytes_of "FALSE"). split; [done|]. by exists false.
  - left. split; [by left|done].
Qed.

Example C80_words_met fa :
  import_page fa false (map Some [bytes_of "Tuesday"; bytes_of "x1"]) = Ok (PG_UNICODE, [CStr (bytes_of "Tuesday"); CStr (bytes_of "x1")]).
Proof.
  apply (C80_words_partial fa false [bytes_of "Tuesday"; bytes_of "x1"]); [done|]. repeat constructor.
  - exists 84, (bytes_of "uesday"). split; [done|]. left. lia.
  - apply (bool_decide_unpack _). by vm_compute.
  - by intros [].
  - by vm_compute.
  - by vm_compute.
  - exists 120, (bytes_of "1"). split; [done|]. right. lia.
  - apply (bool_decide_unpack _). by vm_compute.
  - by intros [].
  - by vm_compute.
  - by vm_compute.
Qed.

Example C80_ints_met fa :
  import_page fa false (map Some [bytes_of "-12"; bytes_of "20200131"]) = Ok (PG_INT, map CInt [-12; 20200131]).
Proof.
  apply C80_ints_partial.
  - repeat constructor; try lia.
    + exists (bytes_of "12"), 12. split; [by repeat constructor|]. by right.
    + exists (bytes_of "20200131"), 20200131. split; [by repeat constructor|]. by left.
  - exists (bytes_of "-12"). split; [left|]. left. by vm_compute.
Qed.

Example C80_ints_gaps_met fa :
  import_page fa false [Some (bytes_of "-12"); None] = Ok (PG_OBJECT, [CInt (-12); CNone]).
Proof.
  apply C80_ints_gaps_partial.
  - exists None. split; [right; left|by left].
  - repeat apply List.Forall2_cons; try apply List.Forall2_nil.
    + right. exists (bytes_of "-12"). split; [done|]. split; [|left; by vm_compute].
      exists (-12). split; [|done]. exists (bytes_of "12"), 12. split; [by repeat constructor|]. by right.
    + left. split; [by left|done].
Qed.

Example C80_decimals_met fa :
  let s := bytes_of "-12.50" in
  import_page fa false (map Some [s; bytes_of "3"]) = Ok (PG_FLOAT, [CFloat (f_parse fa s); CFloat (f_parse fa (bytes_of "3"))])
  ∧ import_page fa false [Some s; None] = Ok (PG_OBJECT, [CFloat (f_parse fa s); CNone]).
Proof.
  intros s. assert (plain_decimal s) as Hs.
  { exists (bytes_of "12"), (bytes_of "50"). split; [|done]. repeat split; try (by repeat constructor). }
  split.
  - apply (C80_decimals_partial fa [s; bytes_of "3"]).
    + intros u Hu. apply elem_of_cons in Hu as [->|Hu]; [by right|].
      apply elem_of_list_singleton in Hu as ->. left. exists 3. split; [|done].
      exists (bytes_of "3"), 3. split; [by repeat constructor|]. by left.
    + exists s. split; [left|done].
  - apply C80_decimals_gaps_partial.
    + exists None. split; [right; left|by left].
    + repeat apply List.Forall2_cons; try apply List.Forall2_nil; [right; by exists s|]. left. split; [by left|done].
Qed.
