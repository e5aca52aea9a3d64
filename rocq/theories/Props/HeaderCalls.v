(** C109: the arguments of [head] and [get_headers] reach the reader of headers for the ending of the file, and those of texts the
    native reader.

    Full claim: every documented ending has its reader (the readers of other endings refuse: TypeError); the reader gets the path and
    every setting of the caller; [head] adds nothing but defaults; the native reader of texts gets the settings as well. *)
From Coq Require Import String.
From Verif.Spec Require Import Base Calls HeaderCalls Select.
From Verif.Model Require Import Calls HeaderCalls.
From Verif.Proof Require Import HeaderCallsProofs.
Local Open Scope string_scope.
Local Open Scope list_scope.
Local Open Scope Z_scope.

Theorem C109_get_headers :
  ∀ {A} suffix file_there vs kws (c : binding A) p f,
  bind_args headers_sig vs kws = Ok c →
  value_of c "path" = Some (VStr p) ∨ value_of c "path" = Some (VPath p) →
  file_there p = true → (∃ v, value_of c "delimiter" = Some v ∧ none_or_text v) → (suffix p, f) ∈ shown_by →
  ∃ b, get_headers suffix file_there vs kws = Ok (f, b) ∧ value_of b "path" = Some (VPath p) ∧
    ∀ n, n ∈ header_settings → is_Some (value_of c n) ∧ value_of b n = value_of c n.
Proof. intros A suffix ft vs kws c p f. exact (get_headers_ok suffix ft vs kws c p f). Qed.
Print Assumptions C109_get_headers.

(** ** Nothing else is read. *)
Theorem C109_get_headers_only :
  ∀ {A} suffix file_there vs kws f (b : binding A),
  get_headers suffix file_there vs kws = Ok (f, b) →
  ∃ c p, bind_args headers_sig vs kws = Ok c ∧
    (value_of c "path" = Some (VStr p) ∨ value_of c "path" = Some (VPath p)) ∧
    file_there p = true ∧ none_or_text (arg c "delimiter") ∧ (suffix p, f) ∈ shown_by.
Proof. intros A suffix ft vs kws f b. exact (get_headers_only suffix ft vs kws f b). Qed.
Print Assumptions C109_get_headers_only.

Theorem C109_ending :
  ∀ {A} suffix file_there vs kws (c : binding A) p,
  bind_args headers_sig vs kws = Ok c →
  value_of c "path" = Some (VStr p) ∨ value_of c "path" = Some (VPath p) →
  file_there p = true → suffix p ∉ shown_by.*1 →
  get_headers suffix file_there vs kws = Err TypeError.
Proof. intros A suffix ft vs kws c p. exact (get_headers_ending suffix ft vs kws c p). Qed.
Print Assumptions C109_ending.

Example C109_get_headers_ex :
  (∃ b, get_headers (A:=nat) (λ _, ".ods") (λ _, true) [VStr "a.ods"; VNone] [("linecount", VInt 3); ("header_row_index", VInt 1)]
        = Ok ("ods_reader_headers", b) ∧
     bd_args b = [("path", VPath "a.ods"); ("delimiter", VNone); ("header_row_index", VInt 1); ("text_qualifier", VNone);
                  ("linecount", VInt 3)]) ∧
  get_headers (A:=nat) (λ _, ".pdf") (λ _, true) [VPath "a.pdf"] [] = Err TypeError ∧
  get_headers (A:=nat) (λ _, ".csv") (λ _, true) [VPath "a.csv"; VInt 44] [] = Err TypeError.
Proof. split; [eexists; split; vm_compute; reflexivity|]. split; vm_compute; reflexivity. Qed.

(** ** [head] *)
Theorem C109_head :
  ∀ {A} suffix file_there vs kws (c : binding A) p f,
  bind_args head_sig vs kws = Ok c →
  value_of c "path" = Some (VStr p) ∨ value_of c "path" = Some (VPath p) →
  file_there p = true → (∃ v, value_of c "delimiter" = Some v ∧ none_or_text v) → (suffix p, f) ∈ shown_by →
  ∃ b, head suffix file_there vs kws = Ok (f, b) ∧ value_of b "path" = Some (VPath p) ∧
    is_Some (value_of c "linecount") ∧ value_of b "linecount" = value_of c "linecount" ∧
    value_of b "delimiter" = value_of c "delimiter" ∧
    value_of b "header_row_index" = Some (VInt 0) ∧ value_of b "text_qualifier" = Some VNone.
Proof. intros A suffix ft vs kws c p f. exact (head_ok suffix ft vs kws c p f). Qed.
Print Assumptions C109_head.

(** Arguments without a name are those of the documentation, in its order; what is left out has the documented value. *)
Theorem C109_in_order :
  ∀ {A} (v w x y z : value A),
  bd_args <$> ok_of (bind_args head_sig [v; w; x] []) = Some [("path", v); ("linecount", w); ("delimiter", x)] ∧
  bd_args <$> ok_of (bind_args head_sig [v] []) = Some [("path", v); ("linecount", VInt 5); ("delimiter", VNone)] ∧
  bd_args <$> ok_of (bind_args headers_sig [v; w; x; y; z] []) =
    Some [("path", v); ("delimiter", w); ("header_row_index", x); ("text_qualifier", y); ("linecount", z)] ∧
  bd_args <$> ok_of (bind_args headers_sig [v] []) =
    Some [("path", v); ("delimiter", VNone); ("header_row_index", VInt 0); ("text_qualifier", VNone); ("linecount", VInt 10)].
Proof. intros A v w x y z. repeat split. Qed.
Print Assumptions C109_in_order.

Example C109_head_ex :
  ∃ b, head (A:=nat) (λ _, ".csv") (λ _, true) [VStr "a.csv"; VInt 7; VStr ";"] [] = Ok ("text_reader_headers", b) ∧
    bd_args b = [("path", VPath "a.csv"); ("delimiter", VStr ";"); ("header_row_index", VInt 0); ("text_qualifier", VNone);
                 ("linecount", VInt 7)].
Proof. eexists; split; vm_compute; reflexivity. Qed.

(** ** Texts.  [d] is the delimiter given or the one found in the file; characters of one byte (others are refused, see below). *)
Theorem C109_text_partial :
  ∀ {A} (encoding_of : string → res (value A)) (detect : string → value A → value A → res (option string)) p (c : binding A) enc d,
  (∃ v w x, value_of c "header_row_index" = Some v ∧ value_of c "linecount" = Some w ∧ value_of c "text_qualifier" = Some x ∧
     (x = VNone ∨ single x) ∧
     (value_of c "delimiter" = Some d ∧ d ≠ VNone ∨
      value_of c "delimiter" = Some VNone ∧ ∃ s, detect p v w = Ok (Some s) ∧ d = VStr s)) →
  single d → encoding_of p = Ok enc →
  ∃ b, text_headers encoding_of detect p c = Ok (Some b) ∧
    value_of b "path" = Some (VText (VText (VPath p))) ∧ value_of b "encoding" = Some enc ∧
    value_of b "delimiter" = Some d ∧ value_of b "newline" = Some (VStr newline_text) ∧
    value_of b "strip_leading_and_tailing_whitespace" = Some (VBool true) ∧
    value_of b "header_row_index" = value_of c "header_row_index" ∧
    value_of b "linecount" = value_of c "linecount" ∧
    value_of b "text_qualifier" = Some (or_else (VStr quote_text) (arg c "text_qualifier")) ∧
    value_of b "quoting" = Some (VStr (match arg c "text_qualifier" with VNone => "QUOTE_NONE" | _ => "QUOTE_MINIMAL" end)).
Proof. intros A eo de p c enc d. exact (text_headers_ok eo de p c enc d). Qed.
Print Assumptions C109_text_partial.

(** No delimiter given and none found: the native reader is not called. *)
Theorem C109_text_none :
  ∀ {A} (encoding_of : string → res (value A)) (detect : string → value A → value A → res (option string)) p (c : binding A),
  arg c "delimiter" = VNone → detect p (arg c "header_row_index") (arg c "linecount") = Ok None →
  text_headers encoding_of detect p c = Ok None.
Proof. intros A eo de p c. exact (text_headers_none eo de p c). Qed.
Print Assumptions C109_text_none.

Example C109_text_ex :
  let c := Bind (A:=nat) [("path", VPath "a.csv"); ("delimiter", VNone); ("header_row_index", VInt 2); ("text_qualifier", VStr "'");
                          ("linecount", VInt 7)] [] [] in
  let run d := text_headers (λ _, Ok (VStr "ENC_UTF8")) (λ _ _ _, d) "a.csv" c in
  (∃ b, run (Ok (Some ";")) = Ok (Some b) ∧
     bd_args b = [("path", VText (VText (VPath "a.csv"))); ("encoding", VStr "ENC_UTF8"); ("newline", VStr newline_text);
                  ("delimiter", VStr ";"); ("text_qualifier", VStr "'"); ("strip_leading_and_tailing_whitespace", VBool true);
                  ("quoting", VStr "QUOTE_MINIMAL"); ("header_row_index", VInt 2); ("linecount", VInt 7)]) ∧
  run (Ok None) = Ok None ∧ run (Err OtherError) = Err ValueError.
Proof. split; [eexists; split; vm_compute; reflexivity|]. split; vm_compute; reflexivity. Qed.

(** A delimiter or qualifier of several bytes is refused as a file that cannot be read. *)
Theorem C109_text_refuted :
  let c d q := Bind (A:=nat) [("path", VPath "a.csv"); ("delimiter", VStr d); ("header_row_index", VInt 0); ("text_qualifier", q);
                              ("linecount", VInt 7)] [] [] in
  let run d q := text_headers (λ _, Ok (VStr "ENC_UTF8")) (λ _ _ _, Ok None) "a.csv" (c d q) in
  run "||" VNone = Err ValueError ∧ run "," (VStr "''") = Err ValueError ∧ run "" VNone = Err ValueError.
Proof. repeat split; vm_compute; reflexivity. Qed.
Print Assumptions C109_text_refuted.

(** ** Endings.  Four of the documented ones have no reader; from_file reads three of those which get_headers refuses. *)
Theorem C109_endings_refuted :
  ∀ {A} s, s ∈ [".csvz"; ".tsvz"; ".xls"; ".html"] →
  s ∈ documented_endings ∧ get_headers (A:=A) (λ _, s) (λ _, true) [VStr "a"] [] = Err TypeError.
Proof.
  intros A s H.
  repeat (apply elem_of_cons in H as [->|H];
    [split; [repeat (first [apply elem_of_list_here | apply elem_of_list_further])|vm_compute; reflexivity]|]).
  by apply elem_of_nil in H.
Qed.
Theorem C109_from_file_refuted :
  ∀ {A} (t : value A) s, s ∈ [".xls"; ".html"; ".hdf5"] →
  (∃ f b, from_file (λ _, s) (λ _, true) [t; VStr "a"] [] = Ok (f, b)) ∧
  get_headers (A:=A) (λ _, s) (λ _, true) [VStr "a"] [] = Err TypeError.
Proof.
  intros A t s H.
  repeat (apply elem_of_cons in H as [->|H]; [split; [eexists _, _|]; vm_compute; reflexivity|]).
  by apply elem_of_nil in H.
Qed.
Print Assumptions C109_endings_refuted.
Print Assumptions C109_from_file_refuted.
