(** C86 and C87: tables printed and written as HTML. *)
From Coq Require Import String.
From Verif.Spec Require Import Display.
From Verif.Proof Require Import DisplayProofs.
Local Open Scope string_scope.
Local Open Scope list_scope.
Local Open Scope Z_scope.

(** For the examples: texts and other values; texts are shown as they are, whole numbers in decimals. *)
Definition show_type (t : bool) : list Z := if t then bytes_of "str" else bytes_of "int".
Definition show_ty (v : cell) : bool := match v with CStr _ => true | _ => false end.
Definition show_str (v : cell) : list Z :=
  match v with CStr s => s | CInt z => python_int z | _ => bytes_of "None" end.
Definition texts (l : list string) : column cell bool := [MkPage (map (λ s, CStr (bytes_of s)) l) [(true, Z.of_nat (List.length l))]].
Definition ints (l : list Z) : column cell bool := [MkPage (map CInt l) [(false, zlen l)]].

(** C86: [show] prints a grid: lines of the same width, a field for every column, its value (or the fill
    value) in every row shown, the number of the row before.  False in general. *)

(** The names are centred and are keys again: the columns ["a"] and [" a "] become one; of two columns
    one is shown. *)
Theorem C86_names_refuted :
  ascii_lines show_type show_str [(bytes_of "a", ints [123]); (bytes_of " a ", ints [456])] None CNone false
  = Ok (map bytes_of ["+==+===+"; "|# | a |"; "+--+---+"; "| 0|456|"; "+==+===+"]).
Proof. vm_compute. reflexivity. Qed.
Print Assumptions C86_names_refuted.

(** Columns shorter than the table: of 21 rows the last seven are shown; a column of 20 values has six
    of them, and none is shown. *)
Theorem C86_short_refuted :
  let long := map Z.of_nat (seq 0 21) in
  match display_dict show_type [(bytes_of "a", ints long); (bytes_of "b", ints (take 20 long))] None CNone false with
  | Ok data => drop 8 (snd (default ([], []) (data !! 1%nat))) = map (λ i, CInt i) [14; 15; 16; 17; 18; 19; 20] ∧
               drop 8 (snd (default ([], []) (data !! 2%nat))) = replicate 7 CNone
  | Err _ => False
  end.
Proof. vm_compute. split; reflexivity. Qed.
Print Assumptions C86_short_refuted.

(** A fill value longer than ["None"] is not counted in the width where values are None. *)
Theorem C86_blanks_refuted :
  ascii_lines show_type show_str [(bytes_of "a", [MkPage [CNone; CInt 1] [(false, 2)]])] None (CStr (bytes_of "missing")) false
  = Ok (map bytes_of ["+==+====+"; "|# | a  |"; "+--+----+"; "| 0|missing|"; "| 1|   1|"; "+==+====+"]).
Proof. vm_compute. reflexivity. Qed.
Print Assumptions C86_blanks_refuted.

(** A table with all tags as names: the last one is used, the row numbers are lost. *)
Theorem C86_tags_refuted :
  let t := map (λ tag, (tag, ints [7])) row_count_tags in
  match display_dict show_type t None CNone false with
  | Ok data => map snd data = replicate 15 [CInt 7]
  | Err _ => False
  end.
Proof. vm_compute. reflexivity. Qed.
Print Assumptions C86_tags_refuted.

(** Without these four: for every table with columns, every slice (of a non-zero step), every fill value
    and every text of values, the lines are a grid with a column of row numbers under a free tag and
    the columns in order; the label of a column is the name of its type if its values have one type;
    the warning stands beneath iff the lengths differ. *)
Theorem C86_grid_partial {T} `{EqDecision T} (type_name : T → list Z) (ty : cell → T) (str : cell → list Z)
    (t : table (list Z) cell T) (slice_ : option pyslice) (blanks : cell) (dtype : bool) :
  let v := contents t in
  let n := nrows v in
  t ≠ [] → NoDup (names v) → Forall unpadded (names v) → (∃ tag, tag ∈ row_count_tags ∧ tag ∉ names v) →
  (∀ s, str (CStr s) = s) →
  ((length (str blanks) <= length (str CNone))%nat ∨ Forall (λ c, CNone ∉ c.2) v) →
  (∀ s, slice_ = Some s → sl_stepv s ≠ 0) →
  (slice_ = None → (20 < n)%nat → Forall (λ c, length c.2 = n ∨ (length c.2 + 7 <= n)%nat) v) →
  (dtype = true → Forall (λ c, counts_exactly (col_types c.2) (map ty (col_iter c.2))) t) →
  ∃ tag nums labels ws lines rest,
    to_ascii type_name str t slice_ blanks dtype = Ok (join_texts [10] (lines ++ rest)) ∧
    tag ∉ names v ∧ Forall2 row_label (shown_rows n slice_) nums ∧
    (dtype = true → Forall2 (λ c, type_label type_name (map ty c.2)) v labels) ∧
    grid ws (tag :: names v) (if dtype then [bytes_of "row" :: labels] else [])
      (zip_with (λ r num, num :: map (λ c, cell_text str blanks c.2 r) v) (shown_rows n slice_) nums) lines ∧
    (rect n v ∧ rest = [] ∨
     ¬ rect n v ∧ rest = [bytes_of "Warning: Columns have different lengths. " ++ str blanks ++ bytes_of " is used as fill value."]).
Proof. exact (to_ascii_grid type_name ty str t slice_ blanks dtype). Qed.

Definition shown_table : table (list Z) cell bool :=
  [(bytes_of "#", ints [5; 66; 777]); (bytes_of "name", texts ["x"; "yy"])].
Example C86_met :
  let v := contents shown_table in
  shown_table ≠ [] ∧ NoDup (names v) ∧ Forall unpadded (names v) ∧ (∃ tag, tag ∈ row_count_tags ∧ tag ∉ names v) ∧
  (∀ s, show_str (CStr s) = s) ∧ (length (show_str CNone) <= length (show_str CNone))%nat ∧
  (20 < nrows v → False)%nat ∧
  Forall (λ c, counts_exactly (col_types c.2) (map show_ty (col_iter c.2))) shown_table.
Proof.
  split_and!; [done|apply (bool_decide_unpack _); vm_compute; exact I|repeat (constructor; [done|]); constructor| |done|done|vm_compute; lia|].
  - exists [126]. split; apply (bool_decide_unpack _); vm_compute; exact I.
  - unfold shown_table. rewrite !list.Forall_cons. split_and!; [| |done]; unfold counts_exactly; cbn [snd].
    + change (col_types (ints [5; 66; 777])) with [(false, 3)]. split; [apply NoDup_singleton|]. intros k m.
      rewrite elem_of_list_singleton. destruct k; vm_compute; (split; [by intros [= ->]|by intros [H ->]]).
    + change (col_types (texts ["x"; "yy"])) with [(true, 2)]. split; [apply NoDup_singleton|]. intros k m.
      rewrite elem_of_list_singleton. destruct k; vm_compute; (split; [by intros [= ->]|by intros [H ->]]).
Qed.
Example C86_printed :
  ascii_lines show_type show_str shown_table None CNone true
  = Ok (map bytes_of ["+===+===+====+"; "| ~ | # |name|"; "|row|int|str |"; "+---+---+----+"; "| 0 |  5|x   |"; "| 1 | 66|yy  |"; "| 2 |777|None|"; "+===+===+====+";
      "Warning: Columns have different lengths. None is used as fill value."]).
Proof. vm_compute. reflexivity. Qed.
Print Assumptions C86_grid_partial.

(** C87: a table written by [to_html] is read again by [from_html].  False: whatever a file contains and in
    whatever pieces it is read, [from_html] returns None ([find] with the start -1 searches the last
    character only). *)
Theorem C87_import_refuted {R} (rows : list Z * Z * Z * list (list Z) → res (option R)) (reads : list (list Z)) :
  from_html rows reads = Ok None.
Proof. exact (from_html_None rows reads). Qed.
Print Assumptions C87_import_refuted.

(** Nor can it be read by any other program: texts are not escaped, different tables give the same file. *)
Theorem C87_escape_refuted :
  repr_html show_type show_str [(bytes_of "a", texts ["x</th></tr><tr><th> 1</th><th>y"])] (Some (Slice (Some 0) (Some 1) None)) CNone false
  = repr_html show_type show_str [(bytes_of "a", texts ["x"; "y"])] (Some (Slice (Some 0) (Some 2) None)) CNone false.
Proof. vm_compute. reflexivity. Qed.
Print Assumptions C87_escape_refuted.

(** What is written: a row of names, the labels, a row for every row shown with the text of every value. *)
Theorem C87_rows_partial {T} `{EqDecision T} (type_name : T → list Z) (ty : cell → T) (str : cell → list Z)
    (t : table (list Z) cell T) (slice_ : option pyslice) (blanks : cell) (dtype : bool) :
  let v := contents t in
  let n := nrows v in
  t ≠ [] → NoDup (names v) → (∃ tag, tag ∈ row_count_tags ∧ tag ∉ names v) → (∀ s, str (CStr s) = s) →
  (∀ s, slice_ = Some s → sl_stepv s ≠ 0) →
  (slice_ = None → (20 < n)%nat → Forall (λ c, length c.2 = n ∨ (length c.2 + 7 <= n)%nat) v) →
  (dtype = true → Forall (λ c, counts_exactly (col_types c.2) (map ty (col_iter c.2))) t) →
  ∃ tag nums labels rest,
    repr_html type_name str t slice_ blanks dtype = Ok (html ([tag :: names v] ++ (if dtype then [bytes_of "row" :: labels] else []) ++
      zip_with (λ r num, num :: map (λ c, value_text str blanks c.2 r) v) (shown_rows n slice_) nums) ++ rest) ∧
    tag ∉ names v ∧ Forall2 (λ r num, ∃ k s, num = replicate k 32 ++ s ∧ row_label r s) (shown_rows n slice_) nums ∧
    (dtype = true → Forall2 (λ c, type_label type_name (map ty c.2)) v labels) ∧
    (rect n v ↔ rest = []).
Proof. exact (repr_html_spec type_name ty str t slice_ blanks dtype). Qed.
Example C87_met : ∃ s : list Z,
  repr_html show_type show_str shown_table (Some (Slice (Some 0) (Some 3) None)) CNone false = Ok (s ++ bytes_of "Warning: Columns have different lengths. None is used as fill value.").
Proof. eexists (bytes_of "<div><table border=1><tr><th>~</th><th>#</th><th>name</th></tr><tr><th> 0</th><th>5</th><th>x</th></tr><tr><th> 1</th><th>66</th><th>yy</th></tr><tr><th> 2</th><th>777</th><th>None</th></tr></table></div>"). vm_compute. reflexivity. Qed.
Print Assumptions C87_rows_partial.
