(** The readers of headers for the endings of files, as the documentation of
    get_headers lists them (file_reader_utils.py 274-290), and the settings of get_headers. *)
From Coq Require Import String.
From Verif.Spec Require Import Base Calls.
Local Open Scope string_scope.
Local Open Scope list_scope.

Definition shown_by : list (string * string) :=
  [(".csv", "text_reader_headers"); (".tsv", "text_reader_headers"); (".txt", "text_reader_headers");
   (".xlsx", "excel_reader_headers"); (".xlsm", "excel_reader_headers"); (".fods", "excel_reader_headers");
   (".json", "excel_reader_headers"); (".simple", "excel_reader_headers"); (".rst", "excel_reader_headers");
   (".mediawiki", "excel_reader_headers"); (".ods", "ods_reader_headers")].

(** Endings in that documentation. *)
Definition documented_endings : list string :=
  [".csv"; ".tsv"; ".csvz"; ".tsvz"; ".xls"; ".xlsx"; ".xlsm"; ".ods"; ".fods"; ".json"; ".html"; ".simple"; ".rst"; ".mediawiki"].

Definition header_settings : list string := ["delimiter"; "header_row_index"; "text_qualifier"; "linecount"].

(** None or a text. *)
Definition none_or_text {A} (v : value A) : Prop := v = VNone ∨ ∃ s, v = VStr s.
