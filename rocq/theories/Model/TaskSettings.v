(** The settings of a text import on their way to the tasks that read the pages:
    the arguments of the native [text_reader] (libnimlite.nim 81-119, pylayer.nim
    4-41), the record of the import (nimlite/funcs/text_reader/table.nim 12-75),
    which Python gets as a dict and hands to each task (tablite/nimlite.py 95-145),
    and the arguments the task makes of it (taskargs.nim 16-92).

    Simplifications: a text is the string of its bytes; the conversion of a Nim
    object into a dict of its fields and of the fields back (nimpy) is faithful; the
    path stays as it is; numbers have no bound; [toUpper] changes the letters of
    ASCII only.  What a task then reads: Model/TextImport.v, Model/GuessImport.v. *)
From Coq Require Import Ascii String.
From Verif.Spec Require Import Base TaskSettings.
From Verif.Model Require Import Csv EncFile.
Local Open Scope string_scope.
Local Open Scope list_scope.
Local Open Scope Z_scope.

(** csvparse.nim 18-27 *)
Record nim_dialect := NimDialect {
  nd_delimiter : ascii; nd_quotechar : ascii; nd_escapechar : ascii;
  nd_doublequote : bool; nd_quoting : quoting;
  nd_skipinitialspace : bool; nd_skiptrailingspace : bool;
  nd_lineterminator : ascii; nd_strict : bool }.

(** csvparse.nim 42-45 *)
Inductive skip_empty := SKIP_NONE | SKIP_ANY | SKIP_ALL.

(** csvparse.nim 47-48; [strict] keeps Nim's default *)
Definition newDialect (delimiter quotechar escapechar : ascii) (doublequote : bool) (q : quoting)
    (skipinitialspace skiptrailingspace : bool) (lineterminator : ascii) : nim_dialect :=
  NimDialect delimiter quotechar escapechar doublequote q skipinitialspace skiptrailingspace lineterminator false.

(** The byte [n] *)
Definition byte (n : nat) : ascii := ascii_of_nat n.
Definition backslash : ascii := byte 92.
Definition two (c : ascii) : string := String backslash (String c EmptyString).

(** pylayer.nim 4-14 *)
Definition makeDialect (delimiter text_qualifier newline : ascii) (q : quoting) (strip : bool) : nim_dialect :=
  newDialect delimiter text_qualifier backslash true q strip strip newline.

(** Nim's [$] of the enumeration, csvparse.nim 9-11 *)
Definition quoting_text (q : quoting) : string :=
  match q with
  | QUOTE_MINIMAL => "QUOTE_MINIMAL" | QUOTE_ALL => "QUOTE_ALL" | QUOTE_NONNUMERIC => "QUOTE_NONNUMERIC"
  | QUOTE_NONE => "QUOTE_NONE" | QUOTE_STRINGS => "QUOTE_STRINGS" | QUOTE_NOTNULL => "QUOTE_NOTNULL"
  end.

(** csvparse.nim 305-313 *)
Definition str2quoting (s : string) : res quoting :=
  let upper := string_map ascii_upper s in
  if decide (upper = "QUOTE_MINIMAL") then Ok QUOTE_MINIMAL
  else if decide (upper = "QUOTE_ALL") then Ok QUOTE_ALL
  else if decide (upper = "QUOTE_NONNUMERIC") then Ok QUOTE_NONNUMERIC
  else if decide (upper = "QUOTE_NONE") then Ok QUOTE_NONE
  else if decide (upper = "QUOTE_STRINGS") then Ok QUOTE_STRINGS
  else if decide (upper = "QUOTE_NOTNULL") then Ok QUOTE_NOTNULL
  else Err OtherError.

(** Nim's [$] of the enumeration, csvparse.nim 42-45 *)
Definition skip_text (s : skip_empty) : string :=
  match s with SKIP_NONE => "NONE" | SKIP_ANY => "ANY" | SKIP_ALL => "ALL" end.

(** csvparse.nim 261-266 *)
Definition str2SkipEmpty (s : string) : res skip_empty :=
  let upper := string_map ascii_upper s in
  if decide (upper = "NONE") then Ok SKIP_NONE
  else if decide (upper = "ANY") then Ok SKIP_ANY
  else if decide (upper = "ALL") then Ok SKIP_ALL
  else Err OtherError.

(** A digit of Nim's HexChars *)
Definition hex_digit (n : nat) : ascii := if decide (n < 10)%nat then byte (48 + n) else byte (55 + n).

(** [addEscapedChar] of Nim's system module on an empty string, as table.nim 40-47
    uses it *)
Definition addEscapedChar (c : ascii) : string :=
  let n := nat_of_ascii c in
  if decide (n = 7%nat) then two "a"%char
  else if decide (n = 8%nat) then two "b"%char
  else if decide (n = 9%nat) then two "t"%char
  else if decide (n = 10%nat) then two "n"%char
  else if decide (n = 11%nat) then two "v"%char
  else if decide (n = 12%nat) then two "f"%char
  else if decide (n = 13%nat) then two "r"%char
  else if decide (n = 27%nat) then two "e"%char
  else if decide (n = 92%nat) then two backslash
  else if decide (n = 39%nat) then two (byte 39)
  else if decide (n = 34%nat) then two (byte 34)
  else if decide ((32 ≤ n)%nat ∧ (n ≤ 126)%nat) then String c EmptyString
  else String backslash (String "x"%char (String (hex_digit (n / 16)) (String (hex_digit (n mod 16)) EmptyString))).

(** nimlite/utils.nim 29-36 *)
Definition unescapeSeq (s : string) : string :=
  if decide (s = two "n"%char) then String (byte 10) EmptyString
  else if decide (s = two "t"%char) then String (byte 9) EmptyString
  else if decide (s = two (byte 34)) then String (byte 34) EmptyString
  else if decide (s = two backslash) then String backslash EmptyString
  else s.

(** The values of the dict that Python gets *)
Inductive field_value :=
| FText (s : string) | FBool (b : bool) | FNum (n : Z)
| FTexts (l : list string) | FNums (l : list Z) | FDict (d : list (string * field_value)).
Notation fields := (list (string * field_value)).

(** table.nim 39-59 *)
Definition newTabliteDialect (d : nim_dialect) : fields :=
  [("delimiter", FText (addEscapedChar (nd_delimiter d)));
   ("quotechar", FText (addEscapedChar (nd_quotechar d)));
   ("escapechar", FText (addEscapedChar (nd_escapechar d)));
   ("doublequote", FBool (nd_doublequote d));
   ("quoting", FText (quoting_text (nd_quoting d)));
   ("skipinitialspace", FBool (nd_skipinitialspace d));
   ("skiptrailingspace", FBool (nd_skiptrailingspace d));
   ("lineterminator", FText (addEscapedChar (nd_lineterminator d)));
   ("strict", FBool (nd_strict d))].

(** table.nim 8-11, 62-63 *)
Definition newTabliteTask (pages : list string) (offset count : Z) : fields :=
  [("pages", FTexts pages); ("offset", FNum offset); ("count", FNum count)].

(** table.nim 24-33, 65-78; the list of all tasks, which a task does not look at, is
    left out *)
Definition newTabliteTasks (path encoding : string) (d : nim_dialect) (import_fields : list Z)
    (import_field_names : list string) (page_size : Z) (guess_dtypes : bool) (skip : string) : fields :=
  [("path", FText path); ("encoding", FText encoding); ("dialect", FDict (newTabliteDialect d));
   ("import_fields", FNums import_fields); ("import_field_names", FTexts import_field_names);
   ("page_size", FNum page_size); ("guess_dtypes", FBool guess_dtypes); ("skip_empty", FText skip)].

(** [d[name]] and nimpy's [to] *)
Fixpoint get_field (name : string) (d : fields) : res field_value :=
  match d with
  | [] => Err KeyError
  | (n, v) :: d => if decide (n = name) then Ok v else get_field name d
  end.
Definition to_text (v : field_value) : res string := match v with FText s => Ok s | _ => Err TypeError end.
Definition to_bool (v : field_value) : res bool := match v with FBool b => Ok b | _ => Err TypeError end.
Definition to_num (v : field_value) : res Z := match v with FNum n => Ok n | _ => Err TypeError end.
Definition to_texts (v : field_value) : res (list string) := match v with FTexts l => Ok l | _ => Err TypeError end.
Definition to_nums (v : field_value) : res (list Z) := match v with FNums l => Ok l | _ => Err TypeError end.
Definition to_dict (v : field_value) : res fields := match v with FDict d => Ok d | _ => Err TypeError end.
Definition get_as {A} (to : field_value → res A) (name : string) (d : fields) : res A :=
  res_bind (get_field name d) to.

(** taskargs.nim 5-14 *)
Record task_args := TaskArgs {
  ta_path : string; ta_encoding : file_encoding; ta_dialect : nim_dialect; ta_guess : bool;
  ta_destinations : list string; ta_import_fields : list Z;
  ta_row_offset : Z; ta_row_count : Z; ta_skip : skip_empty }.

(** libnimlite.nim 62-64, 95-97 and taskargs.nim 40-43: a text of one byte, IOError or
    Exception otherwise *)
Definition one_char (s : string) : res ascii :=
  match s with String c EmptyString => Ok c | _ => Err OtherError end.

(** taskargs.nim 35-68 *)
Definition toTaskArgs_of (path encoding diaDelimiter diaQuotechar diaEscapechar : string) (diaDoublequote : bool)
    (diaQuoting : string) (diaSkipInitialSpace diaSkipTrailingSpace : bool) (diaLineTerminator : string)
    (guess : bool) (tskPages : list string) (tskOffset tskCount : Z) (importFields : list Z)
    (skipEmpty : string) : res task_args :=
  res_bind (one_char (unescapeSeq diaDelimiter)) (λ delimiter,
  res_bind (one_char (unescapeSeq diaQuotechar)) (λ quotechar,
  res_bind (one_char (unescapeSeq diaEscapechar)) (λ escapechar,
  res_bind (one_char (unescapeSeq diaLineTerminator)) (λ lineterminator,
  res_bind (str2quoting diaQuoting) (λ quoting,
  let dialect := newDialect delimiter quotechar escapechar diaDoublequote quoting
                   diaSkipInitialSpace diaSkipTrailingSpace lineterminator in
  res_bind (match str2Enc encoding with Some e => Ok e | None => Err OtherError end) (λ arg_encoding,
  res_bind (str2SkipEmpty skipEmpty) (λ skip,
  Ok (TaskArgs path arg_encoding dialect guess tskPages importFields tskOffset tskCount skip)))))))).

(** taskargs.nim 70-92 *)
Definition toTaskArgs (task_info task : fields) : res task_args :=
  res_bind (get_as to_text "path" task_info) (λ path,
  res_bind (get_as to_text "encoding" task_info) (λ encoding,
  res_bind (get_as to_dict "dialect" task_info) (λ dialect,
  res_bind (get_as to_text "delimiter" dialect) (λ diaDelimiter,
  res_bind (get_as to_text "quotechar" dialect) (λ diaQuotechar,
  res_bind (get_as to_text "escapechar" dialect) (λ diaEscapechar,
  res_bind (get_as to_bool "doublequote" dialect) (λ diaDoublequote,
  res_bind (get_as to_text "quoting" dialect) (λ diaQuoting,
  res_bind (get_as to_bool "skipinitialspace" dialect) (λ diaSkipInitialSpace,
  res_bind (get_as to_bool "skiptrailingspace" dialect) (λ diaSkipTrailingSpace,
  res_bind (get_as to_text "lineterminator" dialect) (λ diaLineTerminator,
  res_bind (get_as to_bool "strict" dialect) (λ _,
  res_bind (get_as to_bool "guess_dtypes" task_info) (λ guess,
  res_bind (get_as to_texts "pages" task) (λ tskPages,
  res_bind (get_as to_num "offset" task) (λ tskOffset,
  res_bind (get_as to_num "count" task) (λ tskCount,
  res_bind (get_as to_nums "import_fields" task_info) (λ importFields,
  res_bind (get_as to_text "skip_empty" task_info) (λ skipEmpty,
  toTaskArgs_of path encoding diaDelimiter diaQuotechar diaEscapechar diaDoublequote diaQuoting
    diaSkipInitialSpace diaSkipTrailingSpace diaLineTerminator guess tskPages tskOffset tskCount
    importFields skipEmpty)))))))))))))))))).

(** libnimlite.nim 92-119 with pylayer.nim 16-41 and text_reader.nim 255-265: the record
    of the import; the fields and their names come from the file. *)
Definition import_record (path encoding newline delimiter text_qualifier quoting : string) (strip guess : bool)
    (skip : skip_empty) (page_size : Z) (import_fields : list Z) (import_field_names : list string) : res fields :=
  res_bind (match str2Enc encoding with Some e => Ok e | None => Err OtherError end) (λ arg_encoding,
  res_bind (one_char newline) (λ arg_newline,
  res_bind (one_char delimiter) (λ arg_delimiter,
  res_bind (one_char text_qualifier) (λ arg_text_qualifier,
  res_bind (str2quoting quoting) (λ arg_quoting,
  Ok (newTabliteTasks path (encoding_text arg_encoding)
        (makeDialect arg_delimiter arg_text_qualifier arg_newline arg_quoting strip)
        import_fields import_field_names page_size guess (skip_text skip))))))).

(** nimlite.py 95-145 and libnimlite.nim 42-53: what the task for some pages is told *)
Definition told (path encoding newline delimiter text_qualifier quoting : string) (strip guess : bool)
    (skip : skip_empty) (page_size : Z) (import_fields : list Z) (import_field_names : list string)
    (pages : list string) (offset count : Z) : res task_args :=
  res_bind (import_record path encoding newline delimiter text_qualifier quoting strip guess skip page_size
              import_fields import_field_names) (λ task_info,
  toTaskArgs task_info (newTabliteTask pages offset count)).
