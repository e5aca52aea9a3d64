(** C111: the settings of a text import reach the tasks that read its pages.

    Full claim: each task is told the path, the encoding, the fields, the pages and the way of quoting, stripping and skipping that
    the import was given, and the delimiter, text qualifier and end of lines, whatever character each of them is.

    The full claim is false: the tasks cannot be told an apostrophe (nor the control characters and bytes above 126): the record of
    the import holds an escaped form that the tasks do not undo, and they raise IOError (C111_apostrophe_refuted).  Proved: exactly
    with the other characters the task gets all that the import was given. *)
From Coq Require Import Ascii String.
From Verif.Spec Require Import Base TaskSettings.
From Verif.Model Require Import Csv EncFile TaskSettings.
From Verif.Proof Require Import TaskSettingsProofs.
Local Open Scope string_scope.
Local Open Scope list_scope.
Local Open Scope Z_scope.

Theorem C111_told_partial :
  ∀ path encoding newline delimiter text_qualifier quoting strip guess skip size fs names pages offset count e nl d q k,
  str2Enc encoding = Some e → only_char newline nl → only_char delimiter d → only_char text_qualifier q →
  spelled quoting (quoting_text k) → tellable nl → tellable d → tellable q →
  told path encoding newline delimiter text_qualifier quoting strip guess skip size fs names pages offset count =
    Ok {| ta_path := path; ta_encoding := e;
          ta_dialect := {| nd_delimiter := d; nd_quotechar := q; nd_escapechar := "\"%char; nd_doublequote := true;
                           nd_quoting := k; nd_skipinitialspace := strip; nd_skiptrailingspace := strip;
                           nd_lineterminator := nl; nd_strict := false |};
          ta_guess := guess; ta_destinations := pages; ta_import_fields := fs;
          ta_row_offset := offset; ta_row_count := count; ta_skip := skip |}.
Proof. exact told_ok. Qed.
Print Assumptions C111_told_partial.

(** ** With anything else the task is not run. *)
Theorem C111_told_only :
  ∀ path encoding newline delimiter text_qualifier quoting strip guess skip size fs names pages offset count a,
  told path encoding newline delimiter text_qualifier quoting strip guess skip size fs names pages offset count = Ok a →
  ∃ e nl d q k, str2Enc encoding = Some e ∧ only_char newline nl ∧ only_char delimiter d ∧ only_char text_qualifier q ∧
    spelled quoting (quoting_text k) ∧ tellable nl ∧ tellable d ∧ tellable q.
Proof. exact told_only. Qed.
Print Assumptions C111_told_only.

Theorem C111_encodings :
  str2Enc "ENC_UTF8" = Some ENC_UTF8 ∧ str2Enc "ENC_UTF16" = Some ENC_UTF16 ∧
  ∀ conv, str2Enc ("ENC_CONV|" ++ conv)%string = Some (ENC_CONV conv).
Proof. exact (conj (encoding_there ENC_UTF8) (conj (encoding_there ENC_UTF16) (λ c, encoding_there (ENC_CONV c)))). Qed.
Print Assumptions C111_encodings.

(** A task of a file with tabulators, quoting spelled in small letters *)
Example task_with_tabs :
  told "a.tsv" "ENC_CONV|ISO-8859-1" (String (byte 10) "") (String (byte 9) "") (String (byte 34) "") "quote_minimal" true false
    SKIP_ANY 1000 [0; 2] ["a"; "c"] ["pages/1.npy"; "pages/2.npy"] 12 7 =
  Ok (TaskArgs "a.tsv" (ENC_CONV "ISO-8859-1")
        (NimDialect (byte 9) (byte 34) "\"%char true QUOTE_MINIMAL true true (byte 10) false)
        false ["pages/1.npy"; "pages/2.npy"] [0; 2] 12 7 SKIP_ANY).
Proof. vm_compute. reflexivity. Qed.

Example tabs_meet_hypotheses :
  str2Enc "ENC_CONV|ISO-8859-1" = Some (ENC_CONV "ISO-8859-1") ∧ only_char (String (byte 9) "") (byte 9) ∧
  spelled "quote_minimal" (quoting_text QUOTE_MINIMAL) ∧ tellable (byte 9) ∧ tellable (byte 10) ∧ tellable (byte 34) ∧
  ¬ tellable (byte 39).
Proof.
  split; [exact (encoding_there (ENC_CONV "ISO-8859-1"))|]. split; [reflexivity|].
  split; [apply str2quoting_ok; vm_compute; reflexivity|].
  split; [by left|]. split; [by right; left|]. split.
  - right; right. vm_compute. repeat split; discriminate.
  - intros [H|[H|(_&_&H)]]; [discriminate..|]. by apply H.
Qed.

(** ** Texts in apostrophes cannot be imported. *)
Theorem C111_apostrophe_refuted :
  ¬ ∀ text_qualifier q, only_char text_qualifier q →
    ∃ a, told "a.csv" "ENC_UTF8" (String (byte 10) "") "," text_qualifier "QUOTE_MINIMAL" true true SKIP_NONE 1000 [0] ["a"]
           ["pages/1.npy"] 0 1 = Ok a ∧ nd_quotechar (ta_dialect a) = q.
Proof.
  intros H. destruct (H (String (byte 39) "") (byte 39) eq_refl) as (a & Ha & _). vm_compute in Ha. discriminate.
Qed.
Print Assumptions C111_apostrophe_refuted.

(** ** One of the encodings that tablite/nimlite.py 26 declares as valid is refused. *)
Theorem C111_declared_encodings_refuted :
  ¬ ∀ encoding, encoding ∈ ["ENC_UTF8"; "ENC_UTF16"; "ENC_WIN1250"] → is_Some (str2Enc encoding).
Proof.
  intros H. destruct (H "ENC_WIN1250") as [e He]; [by right; right; left|]. vm_compute in He. discriminate.
Qed.
Print Assumptions C111_declared_encodings_refuted.
