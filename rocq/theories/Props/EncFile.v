(** Text files in several encodings. *)
From Coq Require Import String.
From Verif.Spec Require Import Encoding.
From Verif.Model Require Import EncFile.
From Verif.Proof Require Import EncFileProofs.
Local Open Scope string_scope.
Local Open Scope list_scope.
Local Open Scope Z_scope.

(** C81: the same text gives the same table in every encoding.  False: the reader of
    UTF-16 files keeps the carriage return at the end of a line, so a quoted field
    over two lines with CR LF comes out different from the UTF-8 file; and a UTF-16
    line ends at its first zero character. *)
Theorem C81_refuted : ∃ text bytes, Forall scalar text ∧ encode UTF16_LE text = Some bytes ∧
  file_import (λ _, None) (Some "utf-16") bytes (reader_task SKIP_NONE) (λ _, "h") (λ _, "")
    (tablite_dialect 44 (Some 34) false) None true 0 10 None None ≠
  file_import (λ _, None) (Some "utf-8") (utf8 text) (reader_task SKIP_NONE) (λ _, "h") (λ _, "")
    (tablite_dialect 44 (Some 34) false) None true 0 10 None None.
Proof. exact encodings_differ. Qed.
(** h NL " a CR NL b " NL *)
Example C81_refuted_tables :
  let text := [104; 10; 34; 97; 13; 10; 98; 34; 10] in
  let imported enc bytes := file_import (λ _, None) (Some enc) bytes (reader_task SKIP_NONE) (λ _, "h") (λ _, "")
    (tablite_dialect 44 (Some 34) false) None true 0 10 None None in
  imported "utf-8" (utf8 text) = Some [("h", [[[97; 92; 110; 98]]])] ∧
  imported "utf-16" (utf16 false (BOM :: text)) = Some [("h", [[[97; 13; 92; 110; 98]]])].
Proof. split; vm_compute; reflexivity. Qed.
(** h NL a NUL b NL *)
Theorem C81_nul_refuted :
  let text := [104; 10; 97; 0; 98; 10] in
  let imported enc bytes := file_import (λ _, None) (Some enc) bytes (reader_task SKIP_NONE) (λ _, "h") (λ _, "")
    (tablite_dialect 44 (Some 34) false) None true 0 10 None None in
  imported "utf-8" (utf8 text) = Some [("h", [[[97; 0; 98]]])] ∧
  imported "utf-16" (utf16 false (BOM :: text)) = Some [("h", [[[97]]])].
Proof. split; vm_compute; reflexivity. Qed.

(** The largest true part: a file in any of the encodings gives the table of its
    text as UTF-8 (with [reader_task] the table of C46_import, with [guess_task] that
    of C82), for every dialect, every choice of columns, rows and page size, and
    whatever the tasks do with the records they read.  UTF-16: no zero characters, and no carriage return
    or no quoted and no escaped characters. *)
Theorem C81_partial :
  ∀ X (task : list (list (list chr)) * bool → list nat → Z → option (list (list X)))
    iconv cs text bytes header_name digits dia columns (hdr : bool) header_row ps start limit,
  converts_to_utf8 iconv → Forall scalar text → encode cs text = Some bytes →
  (cs = UTF8 → head text ≠ Some BOM) →
  (cs = UTF16_LE ∨ cs = UTF16_BE → 0 ∉ text ∧
    (CR ∉ text ∨ (d_quoting dia = QUOTE_NONE ∨ quotechar dia ∉ utf8 text) ∧ escapechar dia ∉ utf8 text)) →
  file_import iconv (Some (charset_name cs)) bytes task header_name digits dia columns hdr header_row ps start limit =
  text_import_with task header_name digits dia (utf8 text) columns hdr header_row ps start limit.
Proof. exact @file_import_text. Qed.

(** Euro sign, quotes over two lines, two pages; the file is imported from row 1 on. *)
Example C81_met :
  let text := [104; 44; 105; 10; 0x20AC; 44; 34; 97; 10; 98; 34; 10; 99; 44; 0x1F600; 10; 100; 44; 10] in
  let imported enc bytes := file_import (λ _, None) (Some enc) bytes (reader_task SKIP_NONE) (λ f, if decide (f = [104]) then "h" else "i") (λ _, "")
    (tablite_dialect 44 (Some 34) false) None true 0 2 None None in
  Forall scalar text ∧ 0 ∉ text ∧ CR ∉ text ∧
  (∀ cs bytes, cs ∈ [UTF8; UTF8_SIG; UTF16_LE; UTF16_BE] → encode cs text = Some bytes →
     imported (charset_name cs) bytes =
     Some [("h", [[[0xE2; 0x82; 0xAC]; [99]]; [[100]]]);
           ("i", [[[97; 92; 110; 98]; [0xF0; 0x9F; 0x98; 0x80]]; [[]]])]).
Proof.
  split; [repeat constructor; unfold scalar; lia|]. split; [by apply (bool_decide_unpack _); vm_compute|].
  split; [by apply (bool_decide_unpack _); vm_compute|].
  intros cs bytes Hcs He. repeat (apply elem_of_cons in Hcs as [->|Hcs]; [apply (inj Some) in He; subst bytes; vm_compute; reflexivity|]).
  by apply elem_of_nil in Hcs.
Qed.
Example C81_converter : converts_to_utf8 some_iconv.
Proof. exact some_iconv_converts. Qed.
Print Assumptions C81_refuted.
Print Assumptions C81_nul_refuted.
Print Assumptions C81_partial.
