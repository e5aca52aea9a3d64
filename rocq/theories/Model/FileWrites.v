(** Files written by the exports of tables: tablite/export_utils.py [path_suffix_check] (146-150), [text_writer] (153-187),
    [sql_writer] (190-194), [json_writer] (197-201), [to_html] (204-208), [to_pandas] (51-60), tablite/core.py [to_csv], [to_tsv],
    [to_text], [to_html] (302-328).

    Simplifications: what was written before an exception reaches the file when the [with] statement closes it; disks are never
    full, all texts can be encoded and files can be written if their directory is there. *)
From Coq Require Import String.
From stdpp Require Import strings.
From Verif.Spec Require Export FileWrites.
From Verif.Model Require Export Export.
From Verif.Spec Require Calls.
From Verif.Model Require Calls.
Local Open Scope string_scope.
Local Open Scope list_scope.
Local Open Scope Z_scope.

(** [Path.open("w")]: the file is there and empty *)
Definition put (f : files) (p : string) (text : list Z) : files := λ q, if decide (q = p) then Some text else f q.

(** The texts that the body of [with path.open("w") as fo] gives to [fo.write] one after the other; to work one out may raise *)
Fixpoint write_all (f : files) (p : string) (texts : list (res (list Z))) : files * res unit :=
  match texts with
  | [] => (f, Ok tt)
  | Ok t :: texts => write_all (put f p (default [] (f p) ++ t)) p texts
  | Err e :: _ => (f, Err e)
  end.

Section file_writes.
  (** [path.parent.exists()], [path.suffix] *)
  Context (directory : string → bool) (suffix : string → string).

  Definition with_open_w (f : files) (p : string) (texts : list (res (list Z))) : files * res unit :=
    if directory p then write_all (put f p []) p texts else (f, Err OtherError).

  (** export_utils.py 146-150; FileNotFoundError is [OtherError] *)
  Definition path_suffix_check (p kind : string) : res unit :=
    if negb (bool_decide (suffix p = kind)) then Err ValueError
    else if negb (directory p) then Err OtherError else Ok tt.

  (** A value of a table: one that [DataTypes.to_json] knows or, as bytes, refuses (datatypes.py 374-409) *)
  Inductive outval := Known (v : cell) | Refused.

  Section texts.
    Context (fshow : Z → list Z).   (* [str] of a float *)

    (** export_utils.py 169-178 *)
    Definition txt_of (v : outval) : res (list Z) := match v with Known v => Ok (txt fshow v) | Refused => Err TypeError end.
    Fixpoint txts_of (row : list outval) : res (list (list Z)) :=
      match row with
      | [] => Ok []
      | v :: row => res_bind (txt_of v) (λ t, res_map (cons t) (txts_of row))
      end.

    (** export_utils.py 180-187; [csv.writer] refuses None for a delimiter.  [writerow] works the fields out before it writes.
        [table.rows] is [tbl_rows] of Model/Table.v. *)
    Definition text_writer_file (f : files) (p : string) (names : list string) (rows : list (list outval)) : files * res unit :=
      match delimiter_of (suffix p) with
      | None => with_open_w f p [Err TypeError]
      | Some d => with_open_w f p (Ok (writerow d (map bytes_of names)) :: map (λ row, res_map (writerow d) (txts_of row)) rows)
      end.

    (** core.py 302-321 *)
    Definition to_text_file (kind : string) (f : files) (p : string) (names : list string) (rows : list (list outval)) :
        files * res unit :=
      match path_suffix_check p kind with Ok _ => text_writer_file f p names rows | Err e => (f, Err e) end.
    Definition to_csv := to_text_file ".csv".
    Definition to_tsv := to_text_file ".tsv".
    Definition to_text := to_text_file ".txt".
  End texts.

  (** export_utils.py 204-208, core.py 323-328; [html] is what [_repr_html_] (Model/Display.v) makes of the table *)
  Definition html_writer (f : files) (p : string) (html : res (list Z)) : files * res unit := with_open_w f p [html].
  Definition to_html_file (f : files) (p : string) (html : res (list Z)) : files * res unit :=
    match path_suffix_check p ".html" with Ok _ => html_writer f p html | Err e => (f, Err e) end.

  (** export_utils.py 197-201; [json] is what [to_json] makes of the table *)
  Definition json_writer (f : files) (p : string) (json : res (list Z)) : files * res unit := with_open_w f p [json].

  (** export_utils.py 190-194: [to_sql(table)] is called with one argument of two (12).  [sql] is what [to_sql] makes of a table and
      a name. *)
  Definition sql_writer {A} (f : files) (p : string) (table : Verif.Spec.Calls.value A) (sql : Verif.Spec.Calls.binding A → res (list Z)) :
      files * res unit :=
    with_open_w f p [res_bind (Verif.Model.Calls.do_call (Verif.Model.Calls.Call "export_utils.to_sql" [table] [])) (λ b, sql b.2)].
End file_writes.

(** [pd] is a local variable of [to_pandas], which assigns it in line 59; UnboundLocalError is raised for one that has no value *)
Definition read_local {A} (x : option A) : res A := match x with Some a => Ok a | None => Err UnboundLocalError end.
(** export_utils.py 51-60; ImportError is [OtherError].  [import_pandas] is what [import pandas as pd] gives. *)
Definition to_pandas {D F} (import_pandas : res (D → res F)) (table_dict : res D) : res F :=
  let pd := None in
  match res_bind (read_local pd) (λ DataFrame, res_bind table_dict DataFrame) with
  | Ok df => Ok df
  | Err OtherError => res_bind import_pandas (λ DataFrame, res_bind table_dict DataFrame)
  | Err e => Err e
  end.
