(** tablite/import_utils.py: which rows of a sheet [excel_reader] (lines
    246-262) and [ods_reader] (lines 395-420) take.  A sheet is its list of
    rows; cell conversion and column selection are not modelled and
    [skip_empty] is "NONE". *)
From Verif.Spec Require Export PyList.
Local Open Scope Z_scope.

(** openpyxl's [worksheet.iter_rows(min_row, max_row)]: rows are numbered from
    1, both ends inclusive. *)
Definition iter_rows {A} (rows : list A) (min_row max_row : Z) : list A :=
  omap (λ i, znth rows (i - 1)) (py_range min_row (max_row + 1) 1).

(** import_utils.py 246-259; [max_row] is [worksheet.max_row], which can be
    missing *)
Definition excel_rows {A} (rows : list A) (has_headers : bool) (header_row_index : Z)
    (max_row : option Z) (start limit : Z) : list A :=
  let it_offset := start + (if has_headers then 1 else 0) + header_row_index + 1 in
  let total_rows := match max_row with Some r => r | None => it_offset + limit end in
  iter_rows rows it_offset (Z.min (it_offset + limit) total_rows).

(** import_utils.py 405-418: [data[start_row_pos : start_row_pos + limit]] *)
Definition ods_rows {A} (rows : list A) (has_headers : bool) (header_row_index : Z)
    (start limit : Z) : list A :=
  let start_row_pos := (if has_headers then 1 else 0) + header_row_index in
  py_getslice rows (Slice (Some start_row_pos) (Some (start_row_pos + limit)) None).
