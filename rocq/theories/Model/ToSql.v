(** tablite/export_utils.py 12-48: [to_sql], with Python's [repr] of the values of a tuple.

    Texts are lists of code points.  Simplifications: which characters Python takes for printable
    and the text of a float are parameters; numpy scalars have the [repr] of Python's (true of the
    numpy 1.24 that requirements.txt asks for); values are those of [cell]; no surrogates. *)
From Coq Require Import String.
From Verif.Spec Require Export Sql.
From Verif.Model Require Export Export.
Local Open Scope string_scope.
Local Open Scope list_scope.
Local Open Scope Z_scope.

(** ** Python's standard library *)
Definition hex_digit (d : Z) : Z := if d <? 10 then 48 + d else 87 + d.
(** [k] hexadecimal digits *)
Fixpoint hex (k : nat) (n : Z) : list Z :=
  match k with O => [] | S k => hex k (n / 16) ++ [hex_digit (n mod 16)] end.

Section Repr.
  Context (printable : Z → bool) (fshow : Z → list Z).

  (** [repr] of a str: quotes are apostrophes unless the text has apostrophes and no quotation mark *)
  Definition quote_of (s : list Z) : Z := if existsb (Z.eqb 39) s && negb (existsb (Z.eqb 34) s) then 34 else 39.
  Definition escape (quote c : Z) : list Z :=
    if (c =? quote) || (c =? 92) then [92; c]
    else if c =? 9 then bytes_of "\t" else if c =? 10 then bytes_of "\n" else if c =? 13 then bytes_of "\r"
    else if printable c then [c]
    else if c <? 256 then bytes_of "\x" ++ hex 2 c
    else if c <? 65536 then bytes_of "\u" ++ hex 4 c
    else bytes_of "\U" ++ hex 8 c.
  Definition repr_str (s : list Z) : list Z :=
    let quote := quote_of s in quote :: concat (map (escape quote) s) ++ [quote].

  Fixpoint comma_join (l : list (list Z)) : list Z :=
    match l with
    | [] => []
    | [x] => x
    | x :: l => x ++ bytes_of ", " ++ comma_join l
    end.
  (** seconds and microseconds are left out if they are zero *)
  Definition time_parts (us : Z) : list (list Z) :=
    let s := us / 1000000 in
    map python_int ([s / 3600; s / 60 mod 60] ++
      (if us mod 60000000 =? 0 then [] else s mod 60 :: if us mod 1000000 =? 0 then [] else [us mod 1000000])).
  Definition date_parts (d : ymd) : list (list Z) := map python_int [yy d; mm d; dd d].
  Definition repr (c : cell) : list Z :=
    match c with
    | CNone => bytes_of "None"
    | CBool b => if b then bytes_of "True" else bytes_of "False"
    | CInt n => python_int n
    | CFloat x => fshow x
    | CStr s => repr_str s
    | CDate d => bytes_of "datetime.date(" ++ comma_join (date_parts d) ++ bytes_of ")"
    | CTime us => bytes_of "datetime.time(" ++ comma_join (time_parts us) ++ bytes_of ")"
    | CDateTime d us => bytes_of "datetime.datetime(" ++ comma_join (date_parts d ++ time_parts us) ++ bytes_of ")"
    end.
  (** [str] of a tuple *)
  Definition str_tuple (l : list cell) : list Z :=
    bytes_of "(" ++ comma_join (map repr l) ++ (if decide (length l = 1%nat) then bytes_of "," else []) ++ bytes_of ")".

  (** ** export_utils.py *)

  (** 27-38 *)
  Definition dtype_of (types : list (kind * Z)) : list Z :=
    match types with
    | [(KInt, _)] => bytes_of "INTEGER"
    | [(KFloat, _)] => bytes_of "REAL"
    | _ => bytes_of "TEXT"
    end.
  (** 26-40 *)
  Definition definition (c : string * column cell kind) : list Z := bytes_of c.1 ++ bytes_of " " ++ dtype_of (col_types c.2).
  (** 42 *)
  Definition create_table (prefix : list Z) (t : table string cell kind) : list Z :=
    bytes_of "CREATE TABLE " ++ prefix ++ bytes_of " (" ++ comma_join (map definition t) ++ bytes_of ")".
  (** 47 *)
  Definition row_insert (row : list cell) : list Z :=
    str_tuple (map (λ i, match i with CNone => CStr (bytes_of "NULL") | _ => i end) row).
  (** [",".join] *)
  Fixpoint plain_join (l : list (list Z)) : list Z :=
    match l with
    | [] => []
    | [x] => x
    | x :: l => x ++ bytes_of "," ++ plain_join l
    end.
  (** 12-49 *)
  Definition to_sql (t : table string cell kind) (name : list Z) : res (list Z) :=
    res_map (λ rows,
      bytes_of "begin; " ++ create_table name t ++ bytes_of "; " ++
      (bytes_of "INSERT INTO " ++ name ++ bytes_of " VALUES " ++ plain_join (map row_insert rows)) ++ bytes_of "; commit;")
      (tbl_rows CNone t).
End Repr.
