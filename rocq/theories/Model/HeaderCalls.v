(** The arguments of [head] (tablite/tools.py 32-36) and [get_headers]
    (tablite/file_reader_utils.py 273-316) on their way to the readers of headers
    (256-271), and of those of texts to the native [get_headers] (146-198,
    nimlite.py 52-71, libnimlite.nim 55-65).  Lines are of file_reader_utils.py if
    no file is named.

    Simplifications: as in Model/Calls.v.  The conversion of arguments to the types
    of Nim (header_row_index, linecount) is not modelled. *)
From Coq Require Import String.
From Verif.Spec Require Import Base Calls HeaderCalls.
From Verif.Model Require Import Calls.
Local Open Scope string_scope.
Local Open Scope list_scope.
Local Open Scope Z_scope.

Section headers.
  Context {A : Type}.
  Notation V := (value A).
  Notation signature := (signature A).
  Notation binding := (binding A).

  (** 273 *)
  Definition headers_sig : signature :=
    plain [req "path"; optn "delimiter"; opt "header_row_index" (VInt 0);
           optn "text_qualifier"; opt "linecount" (VInt 10)].

  (** 146, 200, 243: the three readers have the same parameters *)
  Definition header_reader_sig : signature :=
    plain [req "path"; req "delimiter"; req "header_row_index";
           req "text_qualifier"; req "linecount"].

  (** tools.py 32 *)
  Definition head_sig : signature :=
    plain [req "path"; opt "linecount" (VInt 5); optn "delimiter"].

  (** 256-271; the endings here have the dot that line 309 takes away *)
  Definition header_readers : list (string * string) :=
    [(".fods", "excel_reader_headers");
     (".json", "excel_reader_headers");
     (".simple", "excel_reader_headers");
     (".rst", "excel_reader_headers");
     (".mediawiki", "excel_reader_headers");
     (".xlsx", "excel_reader_headers");
     (".xlsm", "excel_reader_headers");
     (".csv", "text_reader_headers");
     (".tsv", "text_reader_headers");
     (".txt", "text_reader_headers");
     (".ods", "ods_reader_headers")].

  (** 297-299 *)
  Definition delimiter_type_ok (v : V) : bool :=
    match v with VNone | VStr _ => true | _ => false end.

  (** The ending of a path with its dot, and whether the file exists. *)
  Variable suffix : string → string.
  Variable file_there : string → bool.

  (** 273-314, up to the call of the reader *)
  Definition get_headers (vs : list V) (kws : list (string * V)) : res (string * binding) :=
    res_bind (bind_args headers_sig vs kws) (λ b,
    res_bind (path_of (arg b "path")) (λ p,
      if negb (file_there p) then Err OtherError
      else if negb (delimiter_type_ok (arg b "delimiter")) then Err TypeError
      else match entry header_readers (suffix p) with
           | None => Err TypeError
           | Some f =>
               res_map (pair f)
                 (bind_args header_reader_sig []
                    [("path", VPath p); same b "delimiter"; same b "header_row_index";
                     same b "text_qualifier"; same b "linecount"])
           end)).

  (** tools.py 32-36 *)
  Definition head (vs : list V) (kws : list (string * V)) : res (string * binding) :=
    res_bind (bind_args head_sig vs kws) (λ b,
      get_headers [arg b "path"] [same b "linecount"; same b "delimiter"]).

  (** nimlite.py 52-60 *)
  Definition nimlite_headers_sig : signature :=
    Sig [req "path"; opt "encoding" (VStr "ENC_UTF8")] false
        [opt "header_row_index" (VInt 0); opt "newline" (VStr newline_text);
         opt "delimiter" (VStr ","); opt "text_qualifier" (VStr quote_text);
         req "quoting"; opt "strip_leading_and_tailing_whitespace" (VBool true);
         opt "linecount" (VInt 10)] false.

  (** libnimlite.nim 55-60 *)
  Definition native_headers_sig : signature :=
    plain [req "path"; req "encoding"; req "newline"; req "delimiter";
           req "text_qualifier"; req "strip_leading_and_tailing_whitespace";
           req "quoting"; req "header_row_index"; req "linecount"].

  (** nimlite.py 61-70 *)
  Definition nimlite_headers (b : binding) : res binding :=
    bind_args native_headers_sig []
      [("path", VText (arg b "path")); same b "encoding"; same b "newline";
       same b "delimiter"; same b "text_qualifier";
       same b "strip_leading_and_tailing_whitespace";
       same b "header_row_index"; same b "quoting"; same b "linecount"].

  (** The native name of the encoding of a file (155-157, utils.py 506-514), and what
      159-175 find in its lines from a row on: a delimiter or nothing. *)
  Variable encoding_of : string → res V.
  Variable detect : string → V → V → res (option string).

  (** 159-175: the delimiter given or found *)
  Definition delimiter_used (p : string) (b : binding) : res (option V) :=
    match arg b "delimiter" with
    | VNone => res_map (option_map VStr) (detect p (arg b "header_row_index") (arg b "linecount"))
    | v => Ok (Some v)
    end.

  (** 155-196, up to the native [get_headers] with its check of the characters
      (libnimlite.nim 61-65); [None] if there is no delimiter (177-180) *)
  Definition text_headers_try (p : string) (b : binding) : res (option binding) :=
    res_bind (delimiter_used p b) (λ d,
    match d with
    | None => Ok None
    | Some d =>
        res_bind (encoding_of p) (λ enc,
        res_bind (bind_args nimlite_headers_sig [VText (VPath p); enc]
          ([same b "header_row_index"; ("delimiter", d); same b "linecount"]
           ++ qualifier_kw (arg b "text_qualifier"))) (λ b,
        res_bind (nimlite_headers b) (λ b, res_map Some (native_check b))))
    end).
  (** 154, 197-198: every exception becomes a ValueError *)
  Definition text_headers (p : string) (b : binding) : res (option binding) :=
    match text_headers_try p b with Ok r => Ok r | Err _ => Err ValueError end.
End headers.
