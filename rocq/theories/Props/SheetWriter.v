(** C103: tables written to sheets. *)
From Coq Require Import String.
From Verif.Spec Require Import SheetWritten.
From Verif.Proof Require Import TableBase SheetWriterProofs CodecProofs.
From Verif.Model Require Import SheetWriter.
Local Open Scope string_scope.
Local Open Scope list_scope.
Local Open Scope Z_scope.

(** C103: a table written by [to_xlsx] or [to_ods] has its names in the first row and its rows below, and is the same table when it
    is read again.  [stored v] is what is read from the file for a cell written as [v].

    The rows of an xlsx file, for all tables; only a path that ends in .xlsx, in a directory that exists, is written. *)
Theorem C103_rows {T} fshow suffix parent_exists (t : table string cval T) :
  to_sheet fshow ".xlsx" suffix parent_exists t =
  if bool_decide (suffix = ".xlsx") then
    if parent_exists then Ok (map (λ n, CStr (txt n)) t.*1 :: rows CNone (contents t)) else Err OtherError
  else Err ValueError.
Proof. exact (sheet_rows fshow suffix parent_exists t). Qed.
Example C103_rows_case :
  to_sheet (λ _, []) ".xlsx" ".xlsx" true (tbl_of_columns (λ _, tt) 2 [("a", [CInt 1; CBool true; CStr (txt "x")]); ("b", [CInt (2 ^ 70)])])
  = Ok [[CStr (txt "a"); CStr (txt "b")]; [CInt 1; CInt (2 ^ 70)]; [CBool true; CNone]; [CStr (txt "x"); CNone]].
Proof. by vm_compute. Qed.
Print Assumptions C103_rows.

(** An xlsx file read again.  False, even if the file keeps all values: columns grow to the length of the longest, tabs and line ends
    vanish, and one number beyond 64 bits fails the import. *)
Theorem C103_xlsx_refuted :
  let stored := sheet_cell (λ _, 0) in
  let str := sheet_name in
  let again cols := res_bind (excel_writer (λ _, []) ".xlsx" (tbl_of_columns (λ _, tt) 2 cols)) (λ g,
    res_map contents (excel_reader (λ _, tt) 2 str (λ _, []) (λ _, CNone) (map (map stored) g) None true 0 None SkipNone 0 10)) in
  again [("a", [CInt 1; CInt 2]); ("b", [CInt 3])] = Ok [("a", [XInt 1; XInt 2]); ("b", [XInt 3; XNone])] ∧
  again [("a", [CStr [ascii_of_nat 120; ascii_of_nat 10; ascii_of_nat 121]])] = Ok [("a", [XStr [120; 121]])] ∧
  again [("a", [CInt (2 ^ 63)])] = Err OtherError.
Proof. by vm_compute. Qed.
Print Assumptions C103_xlsx_refuted.

(** True for all tables but for this: the names come back and every column, with None in the rows that it did not have, if its values
    can be stored. *)
Theorem C103_xlsx_partial {T U} `{EqDecision T} (ty : xcell cval → T) ps str stored fshow dumps loads (t : table string cval U) max_row limit :
  0 < ps → (∀ o, loads (dumps o) = o) →
  NoDup t.*1 → (∀ n, n ∈ t.*1 → header_text str (cleaned (stored (CStr (txt n)))) = n) →
  (∀ c v, c ∈ contents t → v ∈ lengthened (nrows (contents t)) c.2 → storable (λ o, zlen (dumps o)) (cleaned (stored v))) →
  Z.of_nat (nrows (contents t)) <= limit → 0 < limit →
  ∃ g, excel_writer fshow ".xlsx" t = Ok g ∧ (max_row = None ∨ max_row = Some (zlen g) →
    ∃ t' : table string (xcell cval) T,
      excel_reader ty ps str dumps loads (map (map stored) g) max_row true 0 None SkipNone 0 limit = Ok t' ∧
      contents t' = map (λ c, (c.1, map (λ v, cleaned (stored v)) (lengthened (nrows (contents t)) c.2))) (contents t)).
Proof. exact (λ H, xlsx_again ty ps H str stored fshow dumps loads t max_row limit). Qed.
Example C103_xlsx_case :
  let stored := sheet_cell (λ _, 0) in
  let str := sheet_name in
  let t := tbl_of_columns (λ _, tt) 2 [("a", [CInt 1; CNone; CStr (txt "x y")]); ("b c", [CBool false; CInt (-7)])] in
  NoDup t.*1 ∧ (∀ n, n ∈ t.*1 → header_text str (cleaned (stored (CStr (txt n)))) = n) ∧
  (∀ c v, c ∈ contents t → v ∈ lengthened (nrows (contents t)) c.2 → storable (λ _, 0) (cleaned (stored v))).
Proof.
  cbv zeta. split; [apply (bool_decide_unpack _); by vm_compute|]. split.
  - apply list.Forall_forall. repeat constructor.
  - intros c v Hc. revert c Hc v. refine (proj1 (list.Forall_forall _ _) _).
    match goal with |- Forall _ ?l => let x := eval vm_compute in l in change l with x end.
    repeat constructor; refine (proj1 (list.Forall_forall _ _) _); repeat constructor; vm_compute; intuition discriminate.
Qed.
Print Assumptions C103_xlsx_partial.

(** An ODS file.  Different tables are written alike: a number beyond 4294967295 as the text of its digits, a bool as True or False. *)
Theorem C103_ods_refuted fshow :
  let written vs := excel_writer fshow ".ods" (tbl_of_columns (λ _, tt) 2 [("a", vs)]) in
  written [CInt (2 ^ 32); CBool true] = written [CStr (txt "4294967296"); CStr (txt "True")] ∧
  written [CInt (2 ^ 32); CBool true] = Ok [[CStr (txt "a")]; [CStr (txt "4294967296")]; [CStr (txt "True")]].
Proof. by vm_compute. Qed.
Print Assumptions C103_ods_refuted.

(** Proved: None, texts and numbers up to 4294967295 are written as they are, other values as texts from which their type reads them
    again.  One value of bytes and nothing is written. *)
Theorem C103_ods_partial {T} fshow fread (t : table string cval T) : reads_back fshow fread → plain_text fshow →
  (∀ c v, c ∈ contents t → v ∈ c.2 → py_value v ∧ ∀ s, v ≠ CBytes s) →
  ∃ g, excel_writer fshow ".ods" t = Ok (map (λ n, CStr (txt n)) t.*1 :: g) ∧ Forall2 (Forall2 (held fread)) (rows CNone (contents t)) g.
Proof. exact (ods_held fshow fread t). Qed.
Theorem C103_ods_bytes {T} fshow (t : table string cval T) :
  (∃ g, excel_writer fshow ".ods" t = Ok g) ↔ ∀ c s, c ∈ contents t → CBytes s ∉ c.2.
Proof. exact (ods_bytes fshow t). Qed.
Example C103_ods_case :
  let t := tbl_of_columns (λ _, tt) 2 [("a", [CInt (2 ^ 32 - 1); CDate (Ymd 2024 2 29)]); ("b", [CInt (- 2 ^ 32); CStr (txt "x")])] in
  reads_back fshow0 fread0 ∧ plain_text fshow0 ∧ (∀ c v, c ∈ contents t → v ∈ c.2 → py_value v ∧ ∀ s, v ≠ CBytes s) ∧
  excel_writer fshow0 ".ods" t =
    Ok [[CStr (txt "a"); CStr (txt "b")]; [CInt 4294967295; CStr (txt "-4294967296")]; [CStr (txt "2024-02-29"); CStr (txt "x")]] ∧
  excel_writer fshow0 ".ods" (tbl_of_columns (λ _, tt) 2 [("a", [CInt 1; CBytes (txt "x")])]) = Err TypeError.
Proof.
  cbv zeta. split; [exact (proj1 codec_example)|]. split; [exact fshow0_plain|]. split; [|by vm_compute].
  intros c v Hc. revert c Hc v. refine (proj1 (list.Forall_forall _ _) _).
  match goal with |- Forall _ ?l => let x := eval vm_compute in l in change l with x end.
  do 2 (apply list.Forall_cons; split; [refine (proj1 (list.Forall_forall _ _) _); repeat constructor; done|]). constructor.
Qed.
Print Assumptions C103_ods_partial.
Print Assumptions C103_ods_bytes.

(** Read again, the columns hold what was written for their values, and None in the rows that they did not have. *)
Theorem C103_ods_again_partial {T U} `{EqDecision T} (ty : xcell cval → T) ps str stored fshow fread (t : table string cval U) limit : 0 < ps →
  reads_back fshow fread → plain_text fshow → (∀ c v, c ∈ contents t → v ∈ c.2 → py_value v ∧ ∀ s, v ≠ CBytes s) →
  NoDup t.*1 → (∀ n, n ∈ t.*1 → header_text str (stored (CStr (txt n))) = n) →
  Z.of_nat (nrows (contents t)) <= limit → 0 < limit →
  ∃ g (t' : table string (xcell cval) T), excel_writer fshow ".ods" t = Ok g ∧
    ods_reader ty ps str (map (map stored) g) true 0 None SkipNone 0 limit = Ok t' ∧
    Forall2 (λ c r, r.1 = c.1 ∧ Forall2 (λ v x, ∃ w, held fread v w ∧ x = stored w) (lengthened (nrows (contents t)) c.2) r.2)
      (contents t) (contents t').
Proof. exact (ods_again_held ty ps str stored fshow fread t limit). Qed.
Example C103_ods_again_case :
  let str := sheet_name in
  res_bind (excel_writer fshow0 ".ods" (tbl_of_columns (λ _, tt) 2 [("a", [CBool true; CInt 5]); ("b", [CInt (- 2 ^ 32)])])) (λ g,
    res_map contents (ods_reader (λ _, tt) 2 str (map (map (sheet_cell (λ _, 0))) g) true 0 None SkipNone 0 10))
  = Ok [("a", [XStr (bytes_of "True"); XInt 5]); ("b", [XStr (bytes_of "-4294967296"); XNone])].
Proof. by vm_compute. Qed.
Print Assumptions C103_ods_again_partial.
