(** The import of text files with guessed types: nimlite/funcs/text_reader/paging.nim
    and [textReaderTask] (text_reader.nim 44-118) for all columns of a task.

    Simplifications: those of Model/TextImport.v and Model/Guess.v; the code goes
    through the rows and within a row through the columns, here a column is done
    before the next, so of two errors another one may be the first (any error of a
    task ends the import, and the result is [None] here); the counter of the pickle
    memo, which the columns share, does not change what the pages hold. *)
From Verif.Model Require Export TextImport Guess.
Local Open Scope Z_scope.

(** A column of a task: the [j]th of the imported fields a row has. *)
Definition task_column (import_fields : list nat) (rows : list (list (list chr))) (j : nat) : list (option (list Z)) :=
  map (λ row, row_found import_fields row !! j) rows.

Definition guess_task (fa : float_arith) (checks : bool) (s : skip_empty) (out : list (list (list chr)) * bool)
    (import_fields : list nat) (count : Z) : option (list (list cell)) :=
  rows ← task_rows s count 0 out.1 out.2;
  mapM (λ j, match import_page fa checks (task_column import_fields rows j) with
             | Ok page => Some page.2
             | Err _ => None
             end) (seq 0 (length import_fields)).
