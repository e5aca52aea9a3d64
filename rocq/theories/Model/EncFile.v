(** nimlite/funcs/text_reader/encfile.nim: files of text in several encodings, as
    the text import reads them, with the names of the encodings (tablite/utils.py
    506-514).

    Simplifications: a file is the list of its bytes and does not change while it is
    imported; the converter of Nim's std/encodings ([encoder.convert], 41) is a
    parameter; [newWideCString] (85) gives a zero-terminated string; [close] and
    failures of the operating system are left out. *)
From Coq Require Import Ascii String.
From Verif.Spec Require Export Encoding.
From Verif.Model Require Export TextImport.
Local Open Scope Z_scope.

(** encfile.nim 3-6 *)
Inductive file_encoding := ENC_UTF8 | ENC_UTF16 | ENC_CONV (conv : string).

Definition ascii_lower (a : ascii) : ascii :=
  let n := N_of_ascii a in if (65 <=? n)%N && (n <=? 90)%N then ascii_of_N (n + 32) else a.
Definition ascii_upper (a : ascii) : ascii :=
  let n := N_of_ascii a in if (97 <=? n)%N && (n <=? 122)%N then ascii_of_N (n - 32) else a.
Fixpoint string_map (f : ascii → ascii) (s : string) : string :=
  match s with EmptyString => EmptyString | String a s => String (f a) (string_map f s) end.

(** config.py 42 *)
Definition NIM_SUPPORTED_CONV_TYPES : list string := ["Windows-1252"; "ISO-8859-1"]%string.

(** utils.py 506-514; [None] = NotImplementedError. *)
Definition py_to_nim_encoding (encoding : option string) : option string :=
  match encoding with
  | None => Some "ENC_UTF8"%string
  | Some e =>
      if decide (string_map ascii_lower e ∈ ["ascii"; "utf8"; "utf-8"; "utf-8-sig"]%string) then Some "ENC_UTF8"%string
      else if decide (string_map ascii_lower e ∈ ["utf16"; "utf-16"]%string) then Some "ENC_UTF16"%string
      else if decide (e ∈ NIM_SUPPORTED_CONV_TYPES) then Some ("ENC_CONV|" ++ e)%string
      else None
  end.

(** encfile.nim 155-165; [None] = IOError. *)
Definition str2Enc (encoding : string) : option file_encoding :=
  let upper := string_map ascii_upper encoding in
  if decide (upper = "ENC_UTF8"%string) then Some ENC_UTF8
  else if decide (upper = "ENC_UTF16"%string) then Some ENC_UTF16
  else if String.prefix "ENC_CONV|" upper then Some (ENC_CONV (String.substring 9 (String.length encoding - 9) encoding))
  else None.

(** encfile.nim 170-173 *)
Definition encoding_text (e : file_encoding) : string :=
  match e with
  | ENC_UTF8 => "ENC_UTF8"
  | ENC_UTF16 => "ENC_UTF16"
  | ENC_CONV conv => ("ENC_CONV|" ++ conv)%string
  end.

(** encfile.nim 11-15 without the file handle *)
Inductive file_kind := FileUTF8 | FileUTF16 (big : bool) | FileConvertable (convert : list Z → list Z).

(** Nim's [$] of a WideCString (system/widestrs.nim), used in encfile.nim 92: up to
    the first zero; a surrogate without its partner becomes U+FFFD. *)
Fixpoint wide_to_utf8 (ws : list Z) : list Z :=
  match ws with
  | [] => []
  | w :: rest =>
      if w =? 0 then []
      else if (0xD800 <=? w) && (w <=? 0xDBFF) then
        match rest with
        | w2 :: rest2 =>
            if (0xDC00 <=? w2) && (w2 <=? 0xDFFF)
            then utf8_char (w mod 1024 * 1024 + w2 mod 1024 + 0x10000) ++ wide_to_utf8 rest2
            else utf8_char 0xFFFD ++ wide_to_utf8 rest
        | [] => utf8_char 0xFFFD
        end
      else if (0xDC00 <=? w) && (w <=? 0xDFFF) then utf8_char 0xFFFD ++ wide_to_utf8 rest
      else utf8_char w ++ wide_to_utf8 rest
  end.

(** encfile.nim 45-94 repeated to the end of the file: the lines and the number of
    bytes of each.  [cur] are the units of the current line ([wchSeq]), [n] the
    bytes read for it; the buffer holds one unit at a time (53, 77). *)
Fixpoint read_lines16 (big : bool) (cur : list Z) (n : Z) (bytes : list Z) : list (list chr * Z) :=
  match bytes with
  | a :: b :: bytes =>
      let ch := if big then a * 256 + b else b * 256 + a in
      if ch =? 10 then (wide_to_utf8 cur, n + 2) :: read_lines16 big [] 0 bytes
      else read_lines16 big (cur ++ [ch]) (n + 2) bytes
  | _ => match cur with [] => [] | _ => [(wide_to_utf8 cur, n)] end
  end.

(** encfile.nim 106-153: the kind of file and the position after opening it.
    [iconv] is [open("UTF-8", format)] (145).  [None] = an exception. *)
Definition open_file (iconv : string → option (list Z → list Z)) (e : file_encoding) (bytes : list Z)
    : option (file_kind * Z) :=
  match e with
  | ENC_UTF8 =>                                                      (* 129-141 *)
      let bom := take 3 bytes in
      Some (FileUTF8, if decide (bom = [0xEF; 0xBB; 0xBF]) then 3 else 0)
  | ENC_UTF16 =>                                                     (* 106-127 *)
      if Z.odd (Z.of_nat (List.length bytes)) then None
      else match bytes with
           | a :: b :: _ =>
               let bom := b * 256 + a in
               if bom =? 0xFEFF then Some (FileUTF16 false, 2)
               else if bom =? 0xFFFE then Some (FileUTF16 true, 2)
               else None
           | _ => None
           end
  | ENC_CONV conv =>                                                 (* 143-147 *)
      convert ← iconv conv; Some (FileConvertable convert, 0)
  end.

(** encfile.nim 36-43, 96-104: the lines from a position on. *)
Definition file_lines (k : file_kind) (bytes : list Z) (pos : Z) : list (list chr * Z) :=
  let bytes := drop (Z.to_nat pos) bytes in
  match k with
  | FileUTF8 => read_lines bytes
  | FileUTF16 big => read_lines16 big [] 0 bytes
  | FileConvertable convert => map (λ l, (convert l.1, l.2)) (read_lines bytes)
  end.

(** csvparse.nim 315-347: the positions of the records. *)
Definition file_newlines (dia : dialect) (pos : Z) (lines : list (list chr * Z)) : option (list Z * Z) :=
  if decide (d_quoting dia = QUOTE_NONE)
  then Some (pos :: line_offsets pos lines, Z.of_nat (List.length lines))
  else
    let out := parse_loop dia reader0 pos lines in
    if out.2 then Some (pos :: out.1.*2, Z.of_nat (List.length out.1)) else None.

(** csvparse.nim 219-259 on a file opened at [pos] (282-303). *)
Definition file_parse (dia : dialect) (k : file_kind) (bytes : list Z) (pos : Z) : list (list (list chr)) * bool :=
  let out := parse_loop dia reader0 pos (file_lines k bytes pos) in (out.1.*1, out.2).

(** import_utils.py 570-630, libnimlite.nim 81-121, text_reader.nim 144-275: the
    import of a file.  The tasks get the encoding as a text (text_reader.nim 257,
    taskargs.nim 56) and open the file again. *)
Definition file_import {X} (iconv : string → option (list Z → list Z)) (encoding : option string) (bytes : list Z)
    (task : list (list (list chr)) * bool → list nat → Z → option (list (list X)))
    (header_name : list chr → string) (digits : nat → string)
    (dia : dialect) (columns : option (list string)) (has_headers : bool)
    (header_row page_size : Z) (start limit : option Z)
    : option (list (string * list (list X))) :=
  name ← py_to_nim_encoding encoding;
  e ← str2Enc name;
  e' ← str2Enc (encoding_text e);
  kp ← open_file iconv e bytes;
  kp' ← open_file iconv e' bytes;
  import_with header_name digits (file_newlines dia kp.2 (file_lines kp.1 bytes kp.2))
    (file_parse dia kp'.1 bytes) task
    columns has_headers header_row page_size start limit.
