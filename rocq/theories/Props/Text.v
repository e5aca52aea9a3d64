(** C45-C47, C65-C68: reading delimiter-separated text.

    [write_rows], [well_quoted], [seen]'s parts ([crlf_to_lf], [show_breaks],
    [stripped]) are in Spec/Csv.v; characters are numbers. *)
From stdpp Require Import strings.
From Verif.Spec Require Import PyList Csv.
From Verif.Model Require Import Csv TextImport.
From Verif.Proof Require Import NamesProofs CsvProofs CsvScan TextMisc.
Local Open Scope Z_scope.

(** ** C45
    Full statement: for all well-quoted rows, reading back what was written returns
    the fields.  False: newline and tab come back as two characters, a backslash
    is eaten. *)
Theorem C45_quoting_refuted : ¬ ∀ rows, well_quoted 44 34 rows →
  parse_csv (tablite_dialect 44 (Some 34) false) (write_rows 44 34 rows) = (map (map snd) rows, true).
Proof. exact quoting_refuted. Qed.
Theorem C45_backslash_refuted :
  parse_csv (tablite_dialect 44 (Some 34) false) (write_rows 44 34 [[(false, [97; BACKSLASH; 98])]])
    = ([[[97; 98]]], true).
Proof. exact roundtrip_backslash. Qed.

(** What is returned for fields without the escape character: for every dialect
    that quotes, every delimiter and quote character and both settings of the strip
    flags.  Missing from the full statement: fields with the escape character and
    fields longer than 128 K. *)
Theorem C45_quoting_actual :
  ∀ dia strip d q e rows,
  delimiter dia = d → quotechar dia = q → escapechar dia = e → doublequote dia = true →
  d_quoting dia ≠ QUOTE_NONE ∧ d_quoting dia ≠ QUOTE_NONNUMERIC →
  skipinitialspace dia = strip ∧ skiptrailingspace dia = strip →
  d ≠ q ∧ d ≠ e ∧ q ≠ e → d ≠ NL ∧ d ≠ CR ∧ q ≠ NL ∧ q ≠ CR ∧ e ≠ NL →
  (strip = true → d ≠ SPACE ∧ q ≠ SPACE) →
  well_quoted d q rows →
  (∀ row x, row ∈ rows → x ∈ row → e ∉ x.2 ∧ Z.of_nat (length x.2) <= 128 * 1024) →
  parse_csv dia (write_rows d q rows) =
  (map (map (λ x, show_breaks (stripped strip x.1 (crlf_to_lf x.2)))) rows, true).
Proof. exact quoting_actual. Qed.

(** The part of the full statement that holds for tablite's dialects without
    stripping: fields without newline, tab and backslash. *)
Theorem C45_quoting_partial :
  ∀ d q rows,
  d ≠ q ∧ d ≠ BACKSLASH ∧ q ≠ BACKSLASH → d ≠ NL ∧ d ≠ CR ∧ q ≠ NL ∧ q ≠ CR →
  well_quoted d q rows →
  (∀ row x, row ∈ rows → x ∈ row →
    (NL ∉ x.2 ∧ TAB ∉ x.2 ∧ BACKSLASH ∉ x.2) ∧ Z.of_nat (length x.2) <= 128 * 1024) →
  parse_csv (tablite_dialect d (Some q) false) (write_rows d q rows) = (map (map snd) rows, true).
Proof. exact quoting_plain. Qed.
Example C45_example :
  (* two rows: 1,"x ""y"", z" and "",7 *)
  parse_csv (tablite_dialect 44 (Some 34) false)
    (write_rows 44 34 [[(false, [49]); (true, [120; 32; 34; 121; 34; 44; 32; 122])]; [(true, []); (false, [55])]])
  = ([[[49]; [120; 32; 34; 121; 34; 44; 32; 122]]; [[]; [55]]], true) ∧
  well_quoted 44 34 [[(false, [49]); (true, [120; 32; 34; 121; 34; 44; 32; 122])]; [(true, []); (false, [55])]].
Proof.
  split; [vm_compute; reflexivity|]. intros row Hr. repeat (apply elem_of_cons in Hr as [->|Hr]); [..|by apply elem_of_nil in Hr].
  all: split; [done|]; intros x Hx; repeat (apply elem_of_cons in Hx as [->|Hx]); [..|by apply elem_of_nil in Hx].
  all: try done. all: intros _; unfold may_be_bare, NL, CR; set_solver by lia.
Qed.
Print Assumptions C45_quoting_refuted.
Print Assumptions C45_backslash_refuted.
Print Assumptions C45_quoting_actual.
Print Assumptions C45_quoting_partial.

(** ** C46 *)
Theorem C46_tasks :
  ∀ newlines start limit (headers : bool) header_row ps,
  0 < ps → 0 <= newlines → (∀ s, start = Some s → 0 <= s) → 0 <= header_row →
  let first := default 0 start + (if headers then 1 else 0) + header_row in
  let count := match limit with
               | Some l => if decide (0 <= l) then Z.min l (newlines - first) else newlines - first
               | None => newlines - first
               end in
  let ts := import_tasks newlines start limit headers header_row ps in
  ts ≫= (λ t, seqZ t.1 t.2) = seqZ first count ∧
  Forall (λ t, first <= t.1 ∧ 0 < t.2 <= ps ∧ t.1 + t.2 <= newlines) ts.
Proof. exact import_tasks_spec. Qed.
Example C46_example :
  import_tasks 12 (Some 2) (Some 7) true 1 3 = [(4, 3); (7, 3); (10, 1)] ∧
  import_tasks 5 None None true 0 3 = [(1, 3); (4, 1)].
Proof. split; reflexivity. Qed.
Print Assumptions C46_tasks.

(** The whole import: every column holds, over its pages, the fields of its header
    in the wanted rows; no page is longer than the page size. *)
Theorem C46_import :
  ∀ header_name digits dia text columns (hdr : bool) header_row ps s start limit recs header fields names,
  0 < ps → (∀ i, start = Some i → 0 <= i) → (∀ l, limit = Some l → 0 <= l) → 0 <= header_row →
  parse_csv dia text = (recs, true) → recs !! Z.to_nat header_row = Some header →
  field_names header_name digits hdr header = Some fields →
  let imp := default fields columns in
  (∀ c, c ∈ imp → c ∈ fields) → dedup_headers imp = Some names →
  ∃ tbl, text_import header_name digits dia text columns hdr header_row ps s start limit = Some tbl ∧
    tbl.*1 = names ∧ length tbl = length imp ∧
    ∀ i name pages src, tbl !! i = Some (name, pages) → imp !! i = Some src →
      ∃ ix, fields !! ix = Some src ∧
        concat pages = map (λ row, default [] (row !! ix)) (wanted_rows s start limit hdr header_row recs) ∧
        Forall (λ page, Z.of_nat (length page) <= ps) pages.
Proof. exact text_import_spec. Qed.
Example C46_import_example :
  (* a,b / 1,2 / ,  / 3 / 4,5 with skip_empty = ALL, columns b, a, b, pages of 2 rows *)
  let name := λ f : list chr, if decide (f = [97]) then "a" else "b" in
  text_import name (λ _, "") (tablite_dialect 44 (Some 34) true)
    [97; 44; 98; 10; 49; 44; 50; 10; 44; 32; 10; 51; 10; 52; 44; 53; 10]
    (Some ["b"; "a"; "b"]) true 0 2 SKIP_ALL (Some 0) (Some 4)
  = Some [("b", [[[50]]; [[]; [53]]]); ("a", [[[49]]; [[51]; [52]]]); ("b_1", [[[50]]; [[]; [53]]])].
Proof. vm_compute. reflexivity. Qed.
Print Assumptions C46_import.

(** ** C47 *)
Theorem C47_offsets :
  ∀ dia text offs n, find_newlines dia text = Some (offs, n) →
  let recs := (parse_csv dia text).1 in
  let ok := (parse_csv dia text).2 in
  (d_quoting dia ≠ QUOTE_NONE → ok = true) ∧
  (ok = true → n = Z.of_nat (length recs)) ∧
  Z.of_nat (length offs) = n + 1 ∧
  ∀ k off, (k <= length recs)%nat → offs !! k = Some off →
    0 <= off <= Z.of_nat (length text) ∧
    parse_csv dia (drop (Z.to_nat off) text) = (drop k recs, ok).
Proof. exact find_newlines_spec. Qed.
Theorem C47_offsets_found :
  ∀ dia text, find_newlines dia text = None ↔ d_quoting dia ≠ QUOTE_NONE ∧ (parse_csv dia text).2 = false.
Proof. exact find_newlines_total. Qed.
Example C47_example :
  (* a,"x NL y" NL CR NL b CR NL: three records, one over two lines *)
  let text := [97; 44; 34; 120; 10; 121; 34; 10; 13; 10; 98; 13; 10] in
  find_newlines (tablite_dialect 44 (Some 34) false) text = Some ([0; 8; 10; 13], 3) ∧
  parse_csv (tablite_dialect 44 (Some 34) false) (drop 8 text) = ([[[]]; [[98]]], true) ∧
  find_newlines (tablite_dialect 44 None false) text = Some ([0; 5; 8; 10; 13], 4).
Proof. repeat split; vm_compute; reflexivity. Qed.
Print Assumptions C47_offsets.
Print Assumptions C47_offsets_found.

(** ** C65
    Full statement: the records found by the pre-scan cover the file to its end.
    False with a text qualifier: everything after a quote that is not closed is
    dropped without an error. *)
Theorem C65_text_lost_refuted :
  ∃ text offs n, find_newlines (tablite_dialect 44 (Some 34) false) text = Some (offs, n) ∧
    list.last offs ≠ Some (Z.of_nat (length text)).
Proof. exact text_lost. Qed.
(** Without a text qualifier it holds. *)
Theorem C65_no_text_lost_partial :
  ∀ dia text offs n, d_quoting dia = QUOTE_NONE →
  find_newlines dia text = Some (offs, n) → list.last offs = Some (Z.of_nat (length text)).
Proof. exact no_text_lost_none. Qed.
Example C65_example :
  find_newlines (tablite_dialect 44 None false) [97; 44; 34; 10; 98] = Some ([0; 4; 5], 2).
Proof. reflexivity. Qed.
Print Assumptions C65_text_lost_refuted.
Print Assumptions C65_no_text_lost_partial.

(** ** C66
    Full statement: a task gets the dialect character the import was called with,
    for every byte.  False for the single quote and for characters that are
    neither printable nor newline or tab: the task raises IOError. *)
Theorem C66_single_quote_refuted : dialect_char 39 = None.
Proof. exact (proj2 (dialect_char_spec 39 ltac:(lia)) ltac:(lia)). Qed.
Theorem C66_dialect_partial :
  ∀ c, 0 <= c < 256 →
  (32 <= c <= 126 ∧ c ≠ 39 ∨ c = 9 ∨ c = 10 → dialect_char c = Some c) ∧
  (¬ (32 <= c <= 126 ∧ c ≠ 39 ∨ c = 9 ∨ c = 10) → dialect_char c = None).
Proof. exact dialect_char_spec. Qed.
Example C66_example : dialect_char 44 = Some 44 ∧ dialect_char 34 = Some 34 ∧ dialect_char 9 = Some 9.
Proof. repeat split; reflexivity. Qed.
Print Assumptions C66_single_quote_refuted.
Print Assumptions C66_dialect_partial.

(** ** C67 *)
Theorem C67_page_numbers :
  ∀ fuel exists_file bound, (∀ j, (bound <= j)%N → exists_file j = false) → (N.to_nat bound <= fuel)%nat →
  ∀ n idx, ∃ l, page_numbers fuel exists_file idx n = Some l ∧ length l = n ∧ NoDup l ∧
    Forall (λ i, (idx <= i)%N ∧ exists_file i = false) l.
Proof. exact page_numbers_spec. Qed.
Example C67_example :
  page_numbers 5 (λ i, bool_decide (i ∈ [1; 2; 4]%N)) 1 3 = Some [3; 5; 6]%N.
Proof. reflexivity. Qed.
Print Assumptions C67_page_numbers.
