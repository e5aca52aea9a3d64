(** tablite/reindex.py, joins.py, lookup.py; core.py 394-404.

    Column names are strings.  Every task runs in the calling process or in
    a worker; the results are the same and are assembled in task order
    (joins.py 510-519), so the model runs them in that order. *)
From stdpp Require Import strings.
From Verif.Model Require Export Table Names PageSteps.
Local Open Scope Z_scope.

Section Joins.
  Context {A T : Type} `{EqDecision T} (ty : A → T) (none : A) (ps : Z).
  Notation tbl := (table string A T).

  (** [np.where(mask, nones, values)] of arrays of the same length, [mask] being
      [indices == -1] *)
  Definition where_none (indices : list Z) (values : list (option A)) : list A :=
    zip_with (λ i v, if i =? -1 then none else default none v) indices values.

  (** ** reindex.py 9-50 *)
  (** lines 37-45, one page.  [mask] and [values] have the length [k] of the page,
      [nones] the length [n] of the whole index; numpy broadcasts arrays of
      length 1 and otherwise raises ValueError. *)
  Definition reindex_page (n : Z) (indices : list Z) (values : list (option A)) : res (list A) :=
    if existsb (λ i, i =? -1) indices then
      if zlen indices =? n then Ok (where_none indices values)
      else if zlen indices =? 1 then
        (* the single mask entry is true: n times None *)
        Ok (replicate (Z.to_nat n) none)
      else Err ValueError
    else Ok (map (default none) values).

  Fixpoint reindex_col (c : column A T) (index : list Z) (steps : list (Z * Z)) (col : column A T)
      : res (column A T) :=
    match steps with
    | [] => Ok col
    | (start, end_) :: steps =>
        let indices := py_getslice index (Slice (Some start) (Some end_) None) in
        res_bind (get_by_indices c indices) (λ values,
        res_bind (reindex_page (zlen index) indices values) (λ values,
        reindex_col c index steps (col_extend ty ps col values)))
    end.

  (** lines 25-50 with [names]; [add_column] raises ValueError for a name which the
      result already has *)
  Fixpoint reindex_names (t : tbl) (index : list Z) (names : list string) (result : tbl) : res tbl :=
    match names with
    | [] => Ok result
    | name :: names =>
        if decide (name ∈ result.*1) then Err ValueError else
        match dget t name with
        | None => Err KeyError
        | Some c => res_bind (reindex_col c index (page_steps ps (zlen index)) []) (λ c',
                    reindex_names t index names (dset result name c'))
        end
    end.
  Definition reindex (t : tbl) (index : list Z) : res tbl := reindex_names t index t.*1 [].

  (** ** core.py 394-404 [drop_duplicates] *)
  Definition drop_duplicates {K} `{EqDecision K} (keyc : A → K) (hash : list K → Z) (t : tbl)
      (args : list string) : res tbl :=
    let args := match args with [] => t.*1 | _ => args end in
    res_bind (unique_index keyc hash t args) (λ index, reindex t index).

  (** ** joins.py *)
  Inductive join_kind := Inner | Left | Outer | Cross.

  Section mapping.
    Context {K : Type} `{EqDecision K} (keyc : A → K).
    Notation index := (list (list K * list Z)).

    (** 215-240 *)
    Definition inner_mapping (left_index right_index : index) : list (Z * Z) :=
      concat (map (λ e, match dget right_index e.1 with
                        | None => []
                        | Some right_ixs => list_prod e.2 right_ixs
                        end) left_index).
    (** 190-212 *)
    Definition left_mapping (left_index right_index : index) : list (Z * Z) :=
      concat (map (λ e, list_prod e.2 (default [-1] (dget right_index e.1))) left_index).
    (** 243-272; [set_order] is the order in which the set is iterated *)
    Definition outer_mapping (set_order : list (list K) → list (list K))
        (left_index right_index : index) : list (Z * Z) :=
      let unused := fold_left (λ unused e,
        match list_prod e.2 (default [-1] (dget right_index e.1)) with
        | [] => unused
        | _ => filter (λ k, k ≠ e.1) unused
        end) left_index right_index.*1 in
      left_mapping left_index right_index ++
      concat (map (λ k, map (λ j, (-1, j)) (dget_or right_index k [])) (set_order unused)).
    (** 275-289: [zip] of nothing cannot be unpacked *)
    Definition cross_mapping (n m : Z) : res (list (Z * Z)) :=
      match list_prod (py_range 0 n 1) (py_range 0 m 1) with
      | [] => Err ValueError
      | pairs => Ok pairs
      end.
  End mapping.

  (** joins.py 338-379 [_mp_reindex_page] *)
  Definition join_page (c : column A T) (ix : column Z unit) (start end_ : Z) : res (list A) :=
    let part := Slice (Some start) (Some end_) None in
    res_bind (col_getslice ix part) (λ ix_arr,
      if (zlen ix_arr =? 0) || bool_decide (ix_arr = py_range start end_ 1)
      then col_getslice c part
      else res_map (where_none ix_arr) (get_by_indices c ix_arr)).

  (** joins.py 478-491/496-509 and 516-519: the tasks of one column and their results
      put together *)
  Fixpoint join_col (c : column A T) (ix : column Z unit) (n : Z) (starts : list Z) (col : column A T)
      : res (column A T) :=
    match starts with
    | [] => Ok col
    | start :: starts =>
        res_bind (join_page c ix start (Z.min (start + ps) n)) (λ arr,
        join_col c ix n starts (col ++ col_new ty ps arr))
    end.

  (** 475-490 *)
  Fixpoint join_left (t : tbl) (ix : column Z unit) (n : Z) (columns : list string) (new_table : tbl) : res tbl :=
    match columns with
    | [] => Ok new_table
    | name :: columns =>
        if decide (name ∈ new_table.*1) then Err ValueError else
        match dget t name with
        | None => Err KeyError
        | Some c => res_bind (join_col c ix n (py_range 0 (n + 1) ps) []) (λ c',
                    join_left t ix n columns (dset new_table name c'))
        end
    end.
  (** 492-509 *)
  Fixpoint join_right (u : tbl) (ix : column Z unit) (n : Z) (columns : list string) (new_table : tbl) : res tbl :=
    match columns with
    | [] => Ok new_table
    | name :: columns =>
        match unique_name name new_table.*1 with
        | None => Err OtherError (* the loop does not end; excluded by C48 *)
        | Some new_name =>
            if decide (new_name ∈ new_table.*1) then Err ValueError else
            match dget u name with
            | None => Err KeyError
            | Some c => res_bind (join_col c ix n (py_range 0 (n + 1) ps) []) (λ c',
                        join_right u ix n columns (dset new_table new_name c'))
            end
        end
    end.

  (** joins.py 152-182 [_jointype_check], with arguments that
      are lists of strings *)
  Definition jointype_check (t u : tbl) (left_keys right_keys left_columns right_columns : list string)
      : res unit :=
    let missing (l : list string) (tb : tbl) := negb (forallb (λ k, bool_decide (k ∈ tb.*1)) l) in
    if missing left_keys t then Err ValueError else
    if missing right_keys u then Err ValueError else
    if negb (length left_keys =? length right_keys)%nat then Err ValueError else
    if bool_decide (left_columns = []) then Err TypeError else
    if missing left_columns t then Err ValueError else
    if bool_decide (right_columns = []) then Err TypeError else
    if missing right_columns u then Err ValueError else Ok tt.

  Definition int_col (xs : list Z) : column Z unit := col_new (λ _, tt) ps xs.

  (** joins.py 16-104 and 409-569 without [merge_keys] *)
  Definition join {K} `{EqDecision K} (keyc : A → K) (set_order : list (list K) → list (list K))
      (kind : join_kind) (t u : tbl) (left_keys right_keys left_columns right_columns : list string)
      : res tbl :=
    res_bind (jointype_check t u left_keys right_keys left_columns right_columns) (λ _,
    res_bind (match kind with
              | Cross => cross_mapping (tbl_len t) (tbl_len u)
              | _ => res_bind (tbl_index keyc t left_keys) (λ li,
                     res_bind (tbl_index keyc u right_keys) (λ ri,
                     Ok (match kind with
                         | Inner => inner_mapping li ri
                         | Left => left_mapping li ri
                         | _ => outer_mapping set_order li ri
                         end)))
              end) (λ pairs,
    let left := int_col pairs.*1 in
    let right := int_col pairs.*2 in
    let n := Z.max (col_len left) (col_len right) in (* len(mapping) *)
    res_bind (join_left t left n left_columns []) (λ new_table,
    join_right u right n right_columns new_table))).

  (** ** lookup.py 14-119.
      A criterion compares two sides with a function.  A side is a Python value; it stands
      for a column if it is the name of one, else for itself: lines 63-64, 91-96. *)
  Record side := Side { side_name : option string; side_literal : A }.
  Definition criterion : Type := (A → A → bool) * side * side.

  (** [row1d.get(left, left)], [row1d] being the dictionary of the row *)
  Definition side_value (columns : list string) (row : list A) (s : side) : A :=
    match side_name s with
    | None => side_literal s
    | Some n => default (side_literal s) (dget (zip columns row) n)
    end.
  (** 97-99: [all and (False not in evaluations)] or [not all and True in evaluations] *)
  Definition criteria_hold (all_ : bool) (evaluations : list bool) : bool :=
    if all_ then negb (existsb negb evaluations) else existsb id evaluations.
  Definition criteria_of (all_ : bool) (criteria : list criterion) (left_columns right_columns : list string)
      (row1 row2 : list A) : bool :=
    criteria_hold all_ (map (λ c, c.1.1 (side_value left_columns row1 c.1.2) (side_value right_columns row2 c.2)) criteria).

  (** 88-102: the first right row that satisfies the criteria *)
  Fixpoint find_row2 {R} (hold : R → bool) (row2ix : Z) (rows2 : list R) : option Z :=
    match rows2 with
    | [] => None
    | row2 :: rows2 => if hold row2 then Some row2ix else find_row2 hold (row2ix + 1) rows2
    end.

  (** 80-107; the cache is keyed by the hash of the row tuple *)
  Fixpoint lookup_loop (hash : list A → Z) (hold : list A → list A → bool)
      (rows1 rows2 : list (list A)) (cache : list (Z * Z)) : list Z :=
    match rows1 with
    | [] => []
    | row1 :: rows1 =>
        let h := hash row1 in
        let cache := match dget cache h with
                     | Some _ => cache
                     | None => dset cache h (default (-1) (find_row2 (hold row1) 0 rows2))
                     end in
        dget_or cache h (-1) :: lookup_loop hash hold rows1 rows2 cache
    end.

  (** 113-119 [_sp_lookup] *)
  Fixpoint add_renamed (cols : list (string * column A T)) (result : tbl) : res tbl :=
    match cols with
    | [] => Ok result
    | (name, c) :: cols =>
        match unique_name name result.*1 with
        | None => Err OtherError
        | Some revised_name => add_renamed cols (dset result revised_name c)
        end
    end.

  (** The columns used on either side are given ([left_columns], [right_columns], lines
      63-64, in the set's order); [hold] takes the values of those columns. *)
  Definition lookup (hash : list A → Z) (hold : list A → list A → bool)
      (left_columns right_columns : list string) (t u : tbl) : res tbl :=
    let sub (tb : tbl) cols := omap (λ n, pair n <$> dget tb n) cols in
    res_bind (tbl_rows none (sub t left_columns)) (λ rows1,
    res_bind (tbl_rows none (sub u right_columns)) (λ rows2,
    let index := lookup_loop hash hold rows1 rows2 [] in
    res_bind (reindex u index) (λ second,
    add_renamed second (tbl_copy t)))).
End Joins.
