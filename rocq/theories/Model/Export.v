(** tablite/export_utils.py [text_writer] (153-187): tables written to .csv, .tsv and .txt
    files, and [Table.from_file] (core.py 51-218, import_utils.py 570-630, nimlite.py 71-92)
    reading them.

    Texts are bytes (UTF-8); names are strings of bytes.  Simplifications: the operating system
    does not translate line ends ([open] with "w" does on Windows); values are those of [cell]
    (no timedeltas, no bytes: [to_json] refuses them); no NUL characters (the csv module of some
    versions of Python refuses them); [chardet] finds that the file is ASCII or UTF-8. *)
From Coq Require Import String Ascii.
From Verif.Model Require Export Table GuessImport Cast.
Local Open Scope string_scope.
Local Open Scope list_scope.
Local Open Scope Z_scope.

(** ** Python's standard library *)

(** [str] of an int *)
Definition python_int (n : Z) : list Z :=
  (if n <? 0 then [45] else []) ++ dec (S (Z.to_nat (Z.log2 (Z.abs n)))) (Z.abs n).
(** [isoformat] *)
Definition date_isoformat (d : ymd) : list Z := pad 4 (yy d) ++ [45] ++ pad 2 (mm d) ++ [45] ++ pad 2 (dd d).
Definition time_isoformat (us : Z) : list Z :=
  let s := us / 1000000 in
  pad 2 (s / 3600) ++ [58] ++ pad 2 (s / 60 mod 60) ++ [58] ++ pad 2 (s mod 60) ++
  (if us mod 1000000 =? 0 then [] else 46 :: pad 6 (us mod 1000000)).

(** [csv.writer(fo, delimiter=d).writerow(fields)]: fields with the delimiter, the quote or a
    character of the line end "\r\n" are quoted, so is an empty field that is alone *)
Definition to_be_quoted (d : chr) (alone : bool) (f : list chr) : bool :=
  existsb (λ c, (c =? d) || (c =? 34) || (c =? 13) || (c =? 10)) f || (alone && bool_decide (f = [])).
Definition csv_field (d : chr) (alone : bool) (f : list chr) : list chr :=
  if to_be_quoted d alone f
  then 34 :: concat (map (λ c, if c =? 34 then [34; 34] else [c]) f) ++ [34]
  else f.
Fixpoint csv_join (d : chr) (fields : list (list chr)) : list chr :=
  match fields with
  | [] => []
  | [f] => f
  | f :: fields => f ++ d :: csv_join d fields
  end.
Definition writerow (d : chr) (fields : list (list chr)) : list chr :=
  csv_join d (map (csv_field d (bool_decide (length fields = 1%nat))) fields) ++ [13; 10].

(** ** export_utils.py *)
Section Export.
  Context (fshow : Z → list Z).   (* [str] of a float *)

  (** export_utils.py 169-178, datatypes.py 375-409 *)
  Definition txt (v : cell) : list Z :=
    match v with
    | CNone => []
    | CBool b => if b then bytes_of "True" else bytes_of "False"
    | CInt n => python_int n
    | CFloat x => fshow x
    | CStr s => s
    | CDate d => date_isoformat d
    | CTime us => time_isoformat us
    | CDateTime d us => date_isoformat d ++ [84] ++ time_isoformat us
    end.

  (** export_utils.py 183-187 *)
  Definition text_writer {T} (d : chr) (t : table string cell T) : res (list chr) :=
    res_map (λ rows, writerow d (map bytes_of t.*1) ++ concat (map (λ row, writerow d (map txt row)) rows))
      (tbl_rows CNone t).
End Export.

(** export_utils.py 180-181 *)
Definition delimiter_of (suffix : string) : option chr :=
  if decide (suffix = ".csv") then Some 44 else if decide (suffix = ".tsv") then Some 9
  else if decide (suffix = ".txt") then Some 124 else None.

(** ** Reading *)

(** nimlite/utils.nim 76-84: [multiReplace] with empty texts *)
Fixpoint stripEscape (s : list chr) : list chr :=
  match s with
  | [] => []
  | c :: s' =>
      if (c =? 9) || (c =? 10) || (c =? 13) then stripEscape s'
      else match s' with
           | c' :: s'' => if (c =? 92) && ((c' =? 116) || (c' =? 110) || (c' =? 114)) then stripEscape s''
                          else c :: stripEscape s'
           | [] => [c]
           end
  end.
Fixpoint string_of (s : list Z) : string :=
  match s with [] => EmptyString | c :: s => String (ascii_of_N (Z.to_N c)) (string_of s) end.

(** core.py 51-70 with the given options and the defaults of the others: all columns, headers in
    the first row, [start = 0], no limit, no row skipped.  Without [delimiter]: nimlite.py 80;
    [text_qualifier]: import_utils.py 613-617. *)
Definition from_file (fa : float_arith) (guess_datatypes : bool) (text_qualifier delimiter : option chr)
    (strip : bool) (digits : nat → string) (ps : Z) (text : list chr) : option (list (string * list (list cell))) :=
  let dia := tablite_dialect (default 44 delimiter) text_qualifier strip in
  let name := λ f, string_of (stripEscape f) in
  if guess_datatypes
  then text_import_with (guess_task fa false SKIP_NONE) name digits dia text None true 0 ps (Some 0) None
  else
    option_map (map (λ col, (col.1, map (map CStr) col.2)))
      (text_import_with (reader_task SKIP_NONE) name digits dia text None true 0 ps (Some 0) None).
