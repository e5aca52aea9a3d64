(** C91: the headers of a text file shown before the import. *)
From Coq Require Import String.
From Verif.Spec Require Import Export.
From Verif.Proof Require Import HeadersProofs ExportProofs TableBase.
From Verif.Model Require Import Headers.
Local Open Scope string_scope.
Local Open Scope list_scope.
Local Open Scope Z_scope.

(** C91: [get_headers] finds the separator of a file and shows the names which the import gives the columns, and
    the first rows.  False in general: see below. *)

(** What is found, in whatever order the set of separators is iterated: the most frequent separator, of several the
    greatest character; without one the blank, then the line feed. *)
Theorem C91_detect order s : order ≡ₚ separators →
  match detect_seperator order s with
  | Ok None => s = []
  | Ok (Some c) => chief_separator s c ∨ blank_separator s c
  | Err e => e = ValueError ∧ s ≠ [] ∧ (∀ x, x ∈ separators → x ∉ s) ∧ 32 ∉ s ∧ 10 ∉ s
  end.
Proof. exact (detect_spec order s). Qed.
Example C91_detect_case :
  detect_seperator [124; 44; 58; 59; 9] (bytes_of "a;b,c:d;e,f") = Ok (Some 59) ∧
  detect_seperator separators (bytes_of "a b") = Ok (Some 32) ∧ detect_seperator separators (bytes_of "ab") = Err ValueError.
Proof. by vm_compute. Qed.
Print Assumptions C91_detect.

(** With the delimiter given to both, the first row shown has the names of the imported columns, before equal names are made
    different; for every row of headers, number of rows shown, part of the rows imported, with and without guessed types. *)
Theorem C91_import {X} (task : _ → _ → _ → option (list (list X))) order s d q digits text hr ps start limit tbl count h row rest :
  0 <= hr →
  text_import_with task (λ f, string_of (stripEscape f)) digits (tablite_dialect d q true) text None true hr ps start limit = Some tbl →
  text_reader_headers order s (Some d) q (Z.to_nat hr) count text = Ok h → h_rows h = row :: rest →
  dedup_headers (map string_of row) = Some tbl.*1.
Proof. exact (headers_import task order s d q digits text hr ps start limit tbl count h row rest). Qed.
Example C91_import_case :
  let text := bytes_of "junk" ++ [10] ++ bytes_of "a|""b|c""|a" ++ [10] ++ bytes_of "1|2|3" ++ [10] in
  text_reader_headers separators Txt (Some 124) (Some 34) 1 10 text
    = Ok (Headers None [[bytes_of "a"; bytes_of "b|c"; bytes_of "a"]; [bytes_of "1"; bytes_of "2"; bytes_of "3"]] false) ∧
  fmap (M := option) (map fst) (text_import_with (reader_task SKIP_NONE) (λ f, string_of (stripEscape f)) (λ _, "") (tablite_dialect 124 (Some 34) true) text None true 1 100 None None)
    = Some ["a"; "b|c"; "a_1"].
Proof. by vm_compute. Qed.
Print Assumptions C91_import.

(** Without the delimiter the headers are of the separator found, the import takes the comma. *)
Theorem C91_default_refuted fa order : order ≡ₚ separators → ∃ text,
  text_reader_headers order Csv None None 0 10 text
    = Ok (Headers (Some (Some 59)) [[bytes_of "a"; bytes_of "b"]; [bytes_of "1"; bytes_of "2"]] false) ∧
  fmap (M := option) (map fst) (from_file fa false None None true (λ _, "") 100 text) = Some ["a;b"].
Proof. exact (default_delimiter_differs fa order). Qed.
Print Assumptions C91_default_refuted.

(** The separator found in an exported table is not the one it was written with: a column of two words is split at the blank,
    two columns of times at the colon. *)
Theorem C91_found_refuted fshow order : order ≡ₚ separators →
  (∃ text, text_writer fshow 44 ([("name", [MkPage [CStr (bytes_of "John Doe")] []])] : table string cell unit) = Ok text ∧
    text_reader_headers order Csv None (Some 34) 0 10 text
      = Ok (Headers (Some (Some 32)) [[bytes_of "name"]; [bytes_of "John"; bytes_of "Doe"]] false)) ∧
  (∃ text, text_writer fshow 44 ([("a", [MkPage [CTime 0] []]); ("b", [MkPage [CTime 0] []])] : table string cell unit) = Ok text ∧
    text_reader_headers order Csv None (Some 34) 0 10 text
      = Ok (Headers (Some (Some 58)) [[bytes_of "a,b"]; [bytes_of "00"; bytes_of "00"; bytes_of "00,00"; bytes_of "00"; bytes_of "00"]] false)).
Proof. exact (exported_differs fshow order). Qed.
Print Assumptions C91_found_refuted.

(** Exported tables of two or more columns without another separator in a name or value (the largest class for which the
    separator is told without counting): the separator is found, the names and rows are shown. *)
Theorem C91_exported_partial {T} fshow (t : table string cell T) quotes d order s count :
  d = 44 ∨ d = 9 ∨ d = 124 → order ≡ₚ separators →
  let v := contents t in
  (2 <= length v)%nat → NoDup v.*1 →
  (∀ name, name ∈ v.*1 → name_comes_back quotes true d false (bytes_of name)) →
  (∀ c x, c ∈ v → x ∈ filled (nrows v) c.2 → value_comes_back fshow quotes true d false x) →
  (∀ name x, name ∈ v.*1 → x ∈ separators → x ≠ d → x ∉ bytes_of name) →
  (∀ c y x, c ∈ v → y ∈ filled (nrows v) c.2 → x ∈ separators → x ≠ d → x ∉ txt fshow y) →
  ∃ text, text_writer fshow d t = Ok text ∧
    text_reader_headers order s None (if quotes then Some 34 else None) 0 count text =
    Ok (Headers (Some (Some d)) (take (Nat.max 1 (Z.to_nat count)) (map bytes_of v.*1 :: map (map (λ x, stripEscape (txt fshow x))) (rows CNone v))) false).
Proof. exact (λ Hd Ho Htwo Hnd H1 H2 H3 H4, exported_headers fshow t quotes d Hd Htwo Hnd H1 H2 H3 H4 order s count Ho). Qed.
Example C91_exported_case :
  let t : table string cell unit := [("n", [MkPage [CInt (-5); CNone; CInt 123] []]); ("day", [MkPage [CDate (Ymd 2020 2 29)] []])] in
  ∃ text, text_writer (λ _, []) 9 t = Ok text ∧
    text_reader_headers separators Tsv None None 0 2 text =
    Ok (Headers (Some (Some 9)) [[bytes_of "n"; bytes_of "day"]; [bytes_of "-5"; bytes_of "2020-02-29"]] false).
Proof.
  intros t.
  destruct (C91_exported_partial (λ _, []) t false 9 separators Tsv 2 ltac:(by right; left) ltac:(done) ltac:(cbn; lia)
    ltac:(apply (bool_decide_unpack _); vm_compute; exact I)) as (text & H1 & H2).
  - intros name Hin. cbn in Hin. split; [apply simple_comes; [by right; left|..]|].
    all: apply elem_of_cons in Hin as [->|Hin%elem_of_list_singleton]; [|subst name].
    all: try (apply (bool_decide_unpack _); vm_compute; exact I); try done.
  - intros c x Hc Hx. cbn in Hc. apply elem_of_cons in Hc as [->|Hc%elem_of_list_singleton]; [|subst c]; cbn in Hx;
      repeat (apply elem_of_cons in Hx as [->|Hx]; [done|]); by apply elem_of_nil in Hx.
  - intros name x Hin Hx _. cbn in Hin. unfold separators in Hx.
    apply elem_of_cons in Hin as [->|Hin%elem_of_list_singleton]; [|subst name];
      repeat (apply elem_of_cons in Hx as [->|Hx]; [apply (bool_decide_unpack _); vm_compute; exact I|]); by apply elem_of_nil in Hx.
  - intros c y x Hc Hy Hx _. cbn in Hc. unfold separators in Hx. apply elem_of_cons in Hc as [->|Hc%elem_of_list_singleton]; [|subst c]; cbn in Hy;
      repeat (apply elem_of_cons in Hy as [->|Hy];
        [repeat (apply elem_of_cons in Hx as [->|Hx]; [apply (bool_decide_unpack _); vm_compute; exact I|]); by apply elem_of_nil in Hx|]); by apply elem_of_nil in Hy.
  - exists text. split; [done|]. exact H2.
Qed.
Print Assumptions C91_exported_partial.
