(** C116: an export writes the whole file or leaves it as it was.

    Full claim: after an export to a file, the file holds the whole text of the table if nothing was raised, and what it held before
    if something was; no other file changes.

    True if all values of the table can be written and if the path is refused.  The file is emptied first, so what it held is lost
    when a value cannot be written (C116_text_refuted), and [sql_writer] never writes anything (C116_sql_refuted). *)
From Coq Require Import String.
From stdpp Require Import strings.
From Verif.Model Require Import FileWrites.
From Verif.Proof Require Import FileWritesProofs.
Local Open Scope string_scope.
Local Open Scope list_scope.
Local Open Scope Z_scope.

(** [kind] is ".csv", ".tsv" or ".txt" *)
Theorem C116_text_partial directory suffix fshow kind d f p names rows : suffix p = kind → directory p = true →
  delimiter_of kind = Some d →
  (to_text_file directory suffix fshow kind f p names (map (map Known) rows)).2 = Ok tt ∧
  all_or_nothing f p (writerow d (map bytes_of names) ++ concat (map (λ row, writerow d (map (txt fshow) row)) rows))
    (to_text_file directory suffix fshow kind f p names (map (map Known) rows)).
Proof. exact (text_written directory suffix fshow kind d f p names rows). Qed.
Print Assumptions C116_text_partial.

(** The text is that of Props/Export.v *)
Theorem C116_export {T} directory suffix fshow kind d f p (t : table string cell T) rows text : suffix p = kind →
  directory p = true → delimiter_of kind = Some d → tbl_rows CNone t = Ok rows → text_writer fshow d t = Ok text →
  (to_text_file directory suffix fshow kind f p t.*1 (map (map Known) rows)).2 = Ok tt ∧
  (to_text_file directory suffix fshow kind f p t.*1 (map (map Known) rows)).1 p = Some text.
Proof. exact (text_exported directory suffix fshow kind d f p t rows text). Qed.
Print Assumptions C116_export.

Definition dir0 (p : string) : bool := true.
Definition suffix0 (p : string) : string := ".csv".
Definition files0 : files := λ q, if decide (q = "a.csv") then Some [104; 105] else if decide (q = "b.csv") then Some [33] else None.
Definition show0 (x : Z) : list Z := [].

Example C116_text_case :
  let out := to_csv dir0 suffix0 show0 files0 "a.csv" ["n"; "m"] [[Known (CInt 7); Known (CStr [97; 44])]; [Known CNone; Known (CBool true)]] in
  out.2 = Ok tt ∧ out.1 "a.csv" = Some (bytes_of "n,m" ++ [13; 10] ++ bytes_of "7," ++ [34; 97; 44; 34; 13; 10] ++ bytes_of ",True" ++ [13; 10]) ∧
  out.1 "b.csv" = Some [33].
Proof. vm_compute. done. Qed.

Example C116_export_case :
  let t := [("n", [MkPage [CInt 7; CNone] []]); ("m", [MkPage [CStr [97; 44]] []; MkPage [CBool true] []])] : table string cell unit in
  tbl_rows CNone t = Ok [[CInt 7; CStr [97; 44]]; [CNone; CBool true]] ∧ delimiter_of ".csv" = Some 44 ∧
  Ok ((to_csv dir0 suffix0 show0 files0 "a.csv" t.*1 [[Known (CInt 7); Known (CStr [97; 44])]; [Known CNone; Known (CBool true)]]).1 "a.csv")
    = res_map Some (text_writer show0 44 t).
Proof. vm_compute. done. Qed.

(** A value that cannot be written: the rows before it are in the file, whatever it held is lost *)
Theorem C116_text_cut directory suffix fshow kind d f p names rows row rest : suffix p = kind → directory p = true →
  delimiter_of kind = Some d → Refused ∈ row →
  (to_text_file directory suffix fshow kind f p names (map (map Known) rows ++ row :: rest)).2 = Err TypeError ∧
  (to_text_file directory suffix fshow kind f p names (map (map Known) rows ++ row :: rest)).1 p =
    Some (writerow d (map bytes_of names) ++ concat (map (λ row, writerow d (map (txt fshow) row)) rows)) ∧
  ∀ q, q ≠ p → (to_text_file directory suffix fshow kind f p names (map (map Known) rows ++ row :: rest)).1 q = f q.
Proof. exact (text_cut directory suffix fshow kind d f p names rows row rest). Qed.
Print Assumptions C116_text_cut.

Theorem C116_text_refuted : ∃ directory suffix fshow f p names rows,
  directory p = true ∧ suffix p = ".csv" ∧ ∀ text, ¬ all_or_nothing f p text (to_csv directory suffix fshow f p names rows).
Proof.
  exists dir0, suffix0, show0, files0, "a.csv", ["n"], [[Known (CInt 7)]; [Refused]; [Known (CInt 8)]].
  split_and!; [done|done|]. intros text [H _]. vm_compute in H. discriminate H.
Qed.
Print Assumptions C116_text_refuted.
(** what is in the file then *)
Example C116_text_refuted_case :
  (to_csv dir0 suffix0 show0 files0 "a.csv" ["n"] [[Known (CInt 7)]; [Refused]; [Known (CInt 8)]]).1 "a.csv" =
    Some (bytes_of "n" ++ [13; 10] ++ bytes_of "7" ++ [13; 10]) ∧ files0 "a.csv" = Some [104; 105].
Proof. vm_compute. done. Qed.

(** Paths that are refused *)
Theorem C116_path directory suffix fshow kind f p names rows : suffix p ≠ kind ∨ directory p = false →
  ∃ e, to_text_file directory suffix fshow kind f p names rows = (f, Err e).
Proof. exact (bad_path directory suffix fshow kind f p names rows). Qed.
Print Assumptions C116_path.
Theorem C116_path_html directory suffix f p html : suffix p ≠ ".html" ∨ directory p = false →
  ∃ e, to_html_file directory suffix f p html = (f, Err e).
Proof. exact (html_bad_path directory suffix f p html). Qed.
Print Assumptions C116_path_html.
Example C116_path_case : suffix0 "a.csv" ≠ ".txt" ∧ to_text dir0 suffix0 show0 files0 "a.csv" ["n"] [] = (files0, Err ValueError) ∧
  to_csv (λ _, false) suffix0 show0 files0 "a.csv" ["n"] [] = (files0, Err OtherError).
Proof. split_and!; vm_compute; done. Qed.

(** [text_writer] without the check: a path with another ending is emptied *)
Theorem C116_no_check directory suffix fshow f p names rows : delimiter_of (suffix p) = None → directory p = true →
  (text_writer_file directory suffix fshow f p names rows).1 p = Some [] ∧
  (text_writer_file directory suffix fshow f p names rows).2 = Err TypeError.
Proof. exact (no_delimiter directory suffix fshow f p names rows). Qed.
Print Assumptions C116_no_check.
Example C116_no_check_case : delimiter_of ".CSV" = None ∧
  (text_writer_file dir0 (λ _, ".CSV") show0 files0 "a.csv" ["n"] []).1 "a.csv" = Some [].
Proof. vm_compute. done. Qed.

(** HTML and JSON: the whole text, or an empty file *)
Theorem C116_html directory suffix f p html : suffix p = ".html" → directory p = true →
  (to_html_file directory suffix f p html).1 p = Some (match html with Ok t => t | Err _ => [] end) ∧
  (to_html_file directory suffix f p html).2 = res_map (λ _, tt) html ∧
  ∀ q, q ≠ p → (to_html_file directory suffix f p html).1 q = f q.
Proof. exact (html_written directory suffix f p html). Qed.
Print Assumptions C116_html.
Theorem C116_json directory f p json : directory p = true →
  (json_writer directory f p json).1 p = Some (match json with Ok t => t | Err _ => [] end) ∧
  (json_writer directory f p json).2 = res_map (λ _, tt) json ∧
  ∀ q, q ≠ p → (json_writer directory f p json).1 q = f q.
Proof. exact (one_text directory f p json). Qed.
Print Assumptions C116_json.
Example C116_html_case : (to_html_file dir0 (λ _, ".html") files0 "a.csv" (Ok [60; 62])).1 "a.csv" = Some [60; 62] ∧
  (json_writer dir0 files0 "a.csv" (Err TypeError)).1 "a.csv" = Some [].
Proof. vm_compute. done. Qed.

(** SQL: always an empty file, the name of the table is not handed over *)
Theorem C116_sql_refuted {A} directory f p (table : Verif.Spec.Calls.value A) sql : directory p = true →
  (sql_writer directory f p table sql).1 p = Some [] ∧ (sql_writer directory f p table sql).2 = Err TypeError.
Proof. exact (sql_empty directory f p table sql). Qed.
Print Assumptions C116_sql_refuted.
Example C116_sql_case : (sql_writer dir0 files0 "a.csv" (@Verif.Spec.Calls.VNone unit) (λ _, Ok [66])).1 "a.csv" = Some [] ∧ files0 "a.csv" = Some [104; 105].
Proof. vm_compute. done. Qed.

(** Frames of pandas are never made *)
Theorem C116_pandas_refuted {D F} (import_pandas : res (D → res F)) table_dict : to_pandas import_pandas table_dict = Err UnboundLocalError.
Proof. exact (pandas_raises import_pandas table_dict). Qed.
Print Assumptions C116_pandas_refuted.
Example C116_pandas_case : to_pandas (Ok (λ d : list Z, Ok (length d))) (Ok [1; 2]) = Err UnboundLocalError.
Proof. reflexivity. Qed.
