(** nimlite/funcs/text_reader/text_reader.nim [importTextFile] (144-275), the row
    loop of paging.nim [dumpPageBody] (218-353), the dialect codec of table.nim
    (38-60) and taskargs.nim (11-68), and the assembly of the table in
    tablite/nimlite.py [text_reader] (71-200).

    Simplifications: here [guess_datatypes] is off, so every value is the text of its
    field (Model/GuessImport.v has the other case); numbers are unbounded; [start] is not negative; the progress bar and the
    process pool are left out (the results of the tasks come back in task order). *)
From Verif.Spec Require Export Base Csv.
From Verif.Model Require Export Csv Names.
Local Open Scope Z_scope.

(** csvparse.nim 268-283 *)
Definition check_skip_empty (s : skip_empty) (fields : list (list chr)) : bool :=
  match s with
  | SKIP_NONE => false
  | SKIP_ALL => forallb (λ f, bool_decide (f = [])) fields
  | SKIP_ANY => existsb (λ f, bool_decide (f = [])) fields
  end.

(** text_reader.nim 221-252: the [while rowIdx < maxLine] loop; the result lists
    [(rowIdx, rowCount)].  [fuel] bounds the iterations. *)
Fixpoint task_loop (fuel : nat) (row_idx max_line page_size : Z) : list (Z * Z) :=
  match fuel with
  | O => []
  | S fuel =>
      if row_idx <? max_line then
        let next_line := Z.min (row_idx + page_size) max_line in
        (row_idx, next_line - row_idx) :: task_loop fuel next_line max_line page_size
      else []
  end.

(** text_reader.nim 153-154, 214-219. *)
Definition import_tasks (newlines : Z) (start limit : option Z) (has_headers : bool)
    (header_row page_size : Z) : list (Z * Z) :=
  let opt_start := default 0 start in
  let opt_limit := default (-1) limit in
  let offset_row := (if has_headers then 1 else 0) + header_row in
  let row_idx := opt_start + offset_row in
  let max_line := if 0 <=? opt_limit then Z.min newlines (opt_limit + opt_start + offset_row)
                  else newlines in
  task_loop (Z.to_nat (max_line - row_idx)) row_idx max_line page_size.

(** paging.nim 33-38 / 236-241: which records a task keeps.  [None] = parseCSV
    raised before the loop was left. *)
Fixpoint task_rows (s : skip_empty) (count idx : Z) (recs : list (list (list chr))) (ok : bool)
    : option (list (list (list chr))) :=
  match recs with
  | [] => if ok then Some [] else None
  | fields :: recs =>
      if check_skip_empty s fields then task_rows s count (idx + 1) recs ok
      else if count <=? idx then Some []
      else rest ← task_rows s count (idx + 1) recs ok; Some (fields :: rest)
  end.

(** paging.nim 45-57 / 244-250: the fields of a record whose index is imported. *)
Definition row_found (import_fields : list nat) (fields : list (list chr)) : list (list chr) :=
  omap (λ p : nat * list chr, if decide (p.1 ∈ import_fields) then Some p.2 else None)
       (zip (seq 0 (length fields)) fields).

(** paging.nim 243-352: the values one record writes to the pages, in page order:
    the fields whose index is imported, then [noneStr] for the pages left over. *)
Definition row_values (import_fields : list nat) (fields : list (list chr)) : list (list chr) :=
  let found := row_found import_fields fields in
  found ++ replicate (length import_fields - length found) [].

(** text_reader.nim 44-118 [textReaderTask]: the pages of one task, from what
    parseCSV gives at the offset of the task. *)
Definition reader_task (s : skip_empty) (out : list (list (list chr)) * bool)
    (import_fields : list nat) (count : Z) : option (list (list (list chr))) :=
  rows ← task_rows s count 0 out.1 out.2;
  Some (map (λ j, map (λ row, default [] (row_values import_fields row !! j)) rows)
            (seq 0 (length import_fields))).

(** text_reader.nim 162-180: names for the fields of the header line;
    [header_name] stands for [stripEscape] (utils.nim 76-84) and [digits] for
    Nim's [$i]. *)
Definition field_names (header_name : list chr → string) (digits : nat → string)
    (has_headers : bool) (first_line : list (list chr)) : option (list string) :=
  if has_headers then dedup_headers (map header_name first_line)
  else Some (map digits (seq 0 (length first_line))).

(** text_reader.nim 182-212 and nimlite.py 167-186: the imported field indices
    with their names, and the table columns as (name, name of the field).  [None]
    = IOError "Missing columns". *)
Definition import_columns (fields : list string) (columns : option (list string))
    : option (list (nat * string) * list (string * string)) :=
  let imp := default fields columns in
  if decide (Forall (λ c, c ∈ fields) imp) then
    names ← dedup_headers imp;
    Some (filter (λ p : nat * string, p.2 ∈ imp) (zip (seq 0 (length fields)) fields),
          zip names imp)
  else None.

(** Position of a name among the imported field names ([col_map] and
    [column_dict], nimlite.py 167-184). *)
Fixpoint name_index (name : string) (names : list string) : nat :=
  match names with
  | [] => O
  | n :: names => if decide (n = name) then O else S (name_index name names)
  end.

(** text_reader.nim 144-275 and nimlite.py 71-200: the columns of the new table
    with the contents of their pages.  [newlines] is what findNewlines returns,
    [parse_at] what parseCSV gives for the file opened at an offset, [task] the
    pages of a task (its records, the imported fields, the number of rows).
    [None] = an exception. *)
Definition import_with {X} (header_name : list chr → string) (digits : nat → string)
    (newlines : option (list Z * Z)) (parse_at : Z → list (list (list chr)) * bool)
    (task : list (list (list chr)) * bool → list nat → Z → option (list (list X)))
    (columns : option (list string)) (has_headers : bool)
    (header_row page_size : Z) (start limit : option Z)
    : option (list (string * list (list X))) :=
  nl ← newlines;
  let '(offsets, newlines) := nl : list Z * Z in
  if (0 <? newlines) && (header_row <? newlines) then
    header_offset ← offsets !! Z.to_nat header_row;
    first_line ← head (parse_at header_offset).1;
    fields ← field_names header_name digits has_headers first_line;
    cols ← import_columns fields columns;
    let import_fields : list nat := cols.1.*1 in
    let import_names : list string := cols.1.*2 in
    pages ← mapM (λ t : Z * Z,
        offset ← offsets !! Z.to_nat t.1;
        task (parse_at offset) import_fields t.2)
      (import_tasks newlines start limit has_headers header_row page_size);
    Some (map (λ c : string * string,
            (c.1, map (λ res : list (list X), default [] (res !! name_index c.2 import_names)) pages))
          cols.2)
  else None.

(** The import of a text (UTF-8 without byte order mark; the other files:
    Model/EncFile.v). *)
Definition text_import_with {X} (task : list (list (list chr)) * bool → list nat → Z → option (list (list X)))
    (header_name : list chr → string) (digits : nat → string)
    (dia : dialect) (text : list chr) (columns : option (list string)) (has_headers : bool)
    (header_row page_size : Z) (start limit : option Z) : option (list (string * list (list X))) :=
  import_with header_name digits (find_newlines dia text)
    (λ offset, parse_csv dia (drop (Z.to_nat offset) text)) task
    columns has_headers header_row page_size start limit.

(** The import without guessing of types. *)
Definition text_import (header_name : list chr → string) (digits : nat → string)
    (dia : dialect) (text : list chr) (columns : option (list string)) (has_headers : bool)
    (header_row page_size : Z) (s : skip_empty) (start limit : option Z)
    : option (list (string * list (list (list chr)))) :=
  text_import_with (reader_task s) header_name digits dia text columns has_headers header_row page_size start limit.

(** Nim's [addEscapedChar] (system), used by table.nim 38-60 to put the dialect
    into the task description. *)
Definition hex_digit (n : Z) : chr := if n <? 10 then 48 + n else 55 + n.
Definition escaped_char (c : chr) : list chr :=
  if c =? 7 then [92; 97] else if c =? 8 then [92; 98] else if c =? 9 then [92; 116]
  else if c =? 10 then [92; 110] else if c =? 11 then [92; 118] else if c =? 12 then [92; 102]
  else if c =? 13 then [92; 114] else if c =? 27 then [92; 101] else if c =? 92 then [92; 92]
  else if c =? 39 then [92; 39] else if c =? 34 then [92; 34]
  else if (32 <=? c) && (c <=? 126) then [c]
  else [92; 120; hex_digit (c / 16); hex_digit (c mod 16)].

(** utils.nim 29-36 *)
Definition unescape_seq (s : list chr) : list chr :=
  if decide (s = [92; 110]) then [10]
  else if decide (s = [92; 116]) then [9]
  else if decide (s = [92; 34]) then [34]
  else if decide (s = [92; 92]) then [92]
  else s.

(** taskargs.nim 35-43: the character a task gets for [c]; [None] = IOError. *)
Definition dialect_char (c : chr) : option chr :=
  match unescape_seq (escaped_char c) with
  | [c'] => Some c'
  | _ => None
  end.

(** text_reader.nim 229-248: the page numbers given to the pages of all tasks.
    [exists_file] tells whether page file [i] exists; [fuel] bounds the
    [while fileExists] loop. *)
Fixpoint next_page (fuel : nat) (exists_file : N → bool) (idx : N) : option N :=
  if exists_file idx then
    match fuel with O => None | S fuel => next_page fuel exists_file (idx + 1) end
  else Some idx.
Fixpoint page_numbers (fuel : nat) (exists_file : N → bool) (idx : N) (n : nat) : option (list N) :=
  match n with
  | O => Some []
  | S n => i ← next_page fuel exists_file idx; rest ← page_numbers fuel exists_file (i + 1) n; Some (i :: rest)
  end.
