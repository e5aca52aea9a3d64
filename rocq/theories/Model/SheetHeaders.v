(** tablite/file_reader_utils.py [excel_reader_headers] (201-240) and [ods_reader_headers] (243-254); tablite/datatypes.py
    [DataTypes.to_json] (375-409) for the values of cells.

    Simplifications.  A worksheet is its list of rows with [max_row] and [max_column] as left by [fixup_worksheet] (C94; missing
    together), an ODS sheet the list that pyexcel gives.  A book is the list of its sheets with their names, no name twice.
    [isoformat] of dates and times and what [to_json] makes of values of other types are parameters. *)
From Coq Require Import String.
From Verif.Spec Require Export SheetShown.
From Verif.Model Require JsonTable.
From Verif.Model Require Export SheetReader.
Local Open Scope list_scope.
Local Open Scope Z_scope.

Local Notation map_res := JsonTable.map_res.

Section Headers.
  Context {O : Type} (iso : O → list Z) (other : option shown).

  (** datatypes.py 375-409 *)
  Definition cell_json (v : xcell O) : res shown :=
    match v with
    | XNone => Ok SNull
    | XBool b => Ok (SStr (if b then [84; 114; 117; 101] else [70; 97; 108; 115; 101]))
    | XInt z => Ok (SInt z)
    | XStr s => Ok (SStr s)
    | XFloat bits => Ok (SFloat bits)
    | XObj o => Ok (SStr (iso o))
    | XOther => match other with Some s => Ok s | None => Err TypeError end
    end.

  (** openpyxl's [iter_rows(0, max_row)]: a row 0 asked for is row 1, a last row 0 is the last of the sheet, if known *)
  Definition first_rows {A} (rows : list A) (sheet_max max_row : option Z) : list A :=
    match max_row with
    | Some 0 | None => match sheet_max with Some m => iter_rows rows 1 m | None => rows end
    | Some m => iter_rows rows 1 m
    end.

  (** 227-233: the loop over the cells from the end *)
  Fixpoint padding_loop (cells : list (xcell O)) (max_column j padding_ends : Z) : Z :=
    match cells with
    | [] => padding_ends
    | XNone :: cells => padding_loop cells max_column (j + 1) padding_ends
    | _ :: _ => Z.max padding_ends (max_column - j)
    end.
  (** 217-233: the rows from the number [i] on; [container[i] = …] beyond its end is an IndexError *)
  Fixpoint header_loop (rows : list (list (xcell O))) (i max_column : Z) (container : list (option (list shown))) (padding_ends : Z)
      : res (list (option (list shown)) * Z) :=
    match rows with
    | [] => Ok (container, padding_ends)
    | row :: rows =>
        if i <? 0 then header_loop rows (i + 1) max_column container padding_ends
        else
          let row_data := map strip_escape row in
          res_bind (map_res cell_json row_data) (λ line,
            if i <? zlen container then
              header_loop rows (i + 1) max_column (<[Z.to_nat i := Some line]> container)
                (padding_loop (rev row_data) max_column 0 padding_ends)
            else Err IndexError)
    end.
  (** 208-235 for one sheet; [dims]: [max_row] and [max_column] *)
  Definition excel_lines (rows : list (list (xcell O))) (dims : option (Z * Z)) (header_row_index linecount : Z)
      : res (list (option (list shown))) :=
    let max_rows := match dims with Some (max_row, _) => Z.min max_row (linecount + 1) | None => 0 end in
    let max_column := match dims with Some (_, max_column) => max_column | None => 0 end in
    let container := replicate (Z.to_nat max_rows) None in
    res_map (λ p, map (λ c, match c with Some line => Some (take (Z.to_nat p.2) line) | None => None end) p.1)
      (header_loop (first_rows rows (fst <$> dims) (Some (header_row_index + max_rows))) (- header_row_index) max_column container 0).

  (** what is given back: the lines of a sheet, or [None] as the delimiter *)
  Notation entry := (option (list (option (list shown)))).
  (** 201-240 *)
  Fixpoint excel_book (sheets : list (string * (list (list (xcell O)) * option (Z * Z)))) (header_row_index linecount : Z)
      (d : list (string * entry)) : res (list (string * entry)) :=
    match sheets with
    | [] => Ok d
    | (name, (rows, dims)) :: sheets =>
        res_bind (excel_lines rows dims header_row_index linecount) (λ lines,
          excel_book sheets header_row_index linecount (dset (dset d name (Some lines)) "delimiter" None))
    end.
  Definition excel_reader_headers sheets (header_row_index linecount : Z) : res (list (string * entry)) :=
    excel_book sheets header_row_index linecount [].

  (** 250 *)
  Definition ods_lines (data : list (list (xcell O))) (header_row_index linecount : Z) : res (list (list shown)) :=
    map_res (map_res cell_json)
      (py_getslice data (Slice (Some header_row_index) (Some (header_row_index + linecount)) None)).
  (** 243-254 *)
  Fixpoint ods_book (sheets : list (string * list (list (xcell O)))) (header_row_index linecount : Z)
      (d : list (string * option (list (list shown)))) : res (list (string * option (list (list shown)))) :=
    match sheets with
    | [] => Ok d
    | (name, data) :: sheets =>
        res_bind (ods_lines data header_row_index linecount) (λ lines,
          ods_book sheets header_row_index linecount (dset d name (Some lines)))
    end.
  Definition ods_reader_headers sheets (header_row_index linecount : Z) : res (list (string * option (list (list shown)))) :=
    ods_book sheets header_row_index linecount [("delimiter", None)].
End Headers.
