(** tablite/pivots.py 11-182 [pivot].

    [ek]: a value as a key of a dict (equal keys for values that are [==] and hash alike);
    [text]: a str as a value; [show]: the value in an f-string.  The checks of the arguments' types
    and the progress bar are left out. *)
From stdpp Require Import strings.
From Verif.Model Require Export Table Names Groupby.
Local Open Scope Z_scope.

Section Grid.
  Context {A E T : Type} `{EqDecision E, EqDecision T} (ek : A → E) (none : A) (text : string → A) (show : A → string).
  Context (ty : A → T) (ps : Z).
  Notation tbl := (table string A T).

  (** [row_key_index], [col_key_index]: by key, the tuple first seen and its index *)
  Definition index := list (list E * (list A * nat)).
  Definition records := list (nat * list (nat * list A)).
  (** 108-112 *)
  Definition add_key (d : index) (k : list A) : index :=
    match dget d (map ek k) with Some _ => d | None => dset d (map ek k) (k, length d) end.
  Definition ix_of (d : index) (k : list A) : nat := default 0%nat (snd <$> dget d (map ek k)).
  (** 103-119; [r], [c]: the numbers of row and column keys *)
  Definition grid_row (r c : nat) (s : index * index * records) (row : list A) : res (index * index * records) :=
    let '(ris, cis, recs) := s in
    let row_key := take r row in
    let col_key := take c (drop r row) in
    let func_key := drop (r + c) row in
    let ris := add_key ris row_key in
    let cis := add_key cis col_key in
    let rix := ix_of ris row_key in
    let cix := ix_of cis col_key in
    match dget (dget_or recs cix []) rix with
    | Some _ => Err ValueError
    | None => Ok (ris, cis, dset recs cix (dset (dget_or recs cix []) rix func_key))
    end.
  Fixpoint grid_rows (r c : nat) (s : index * index * records) (rows : list (list A)) : res (index * index * records) :=
    match rows with
    | [] => Ok s
    | row :: rows => res_bind (grid_row r c s row) (λ s, grid_rows r c s rows)
    end.

  (** [L[i] = f] *)
  Definition set_at (L : list A) (i : nat) (f : A) : res (list A) :=
    if (i <? length L)%nat then Ok (<[i := f]> L) else Err IndexError.
  (** [result[unique_name(name, result.columns)] = values] *)
  Definition add_unique (t : tbl) (name : string) (values : list A) : res tbl :=
    match unique_name name t.*1 with Some n => Ok (tbl_set ty ps t n values) | None => Err OtherError end.
  Fixpoint add_uniques (t : tbl) (cols : list (string * list A)) : res tbl :=
    match cols with [] => Ok t | (n, vs) :: cols => res_bind (add_unique t n vs) (λ t, add_uniques t cols) end.
  (** 143, 169: [col_name=value] *)
  Definition terms (columns : list string) (col_key : list A) : list string :=
    map (λ p, (p.1 +:+ "=" +:+ show p.2)%string) (zip columns col_key).

  (** ** 124-149: more rows *)
  (** 128-133: the lists [cols[:-1]] and [cols[-1]] *)
  Definition add_keys (cols : list (list A)) (row : list A) : list (list A) :=
    imap (λ j col, col ++ option_list (row !! j)) cols.
  Definition key_lists (r : nat) (functions : list (string * string)) (ris : index) : list (list A) * list A :=
    fold_left (λ s (k : list E * (list A * nat)),
      fold_left (λ s (f : string * string), (add_keys s.1 k.2.1, s.2 ++ [text (f.2 +:+ "(" +:+ f.1 +:+ ")")%string])) functions s)
      ris (replicate r [], []).
  (** 145-148 *)
  Fixpoint fill (g r : nat) (ix : nat) (funcs : list A) (L : list A) : res (list A) :=
    match funcs with [] => Ok L | f :: funcs => res_bind (set_at L (g * r + ix) f) (fill g r (S ix) funcs) end.
  Fixpoint fill_all (g : nat) (recs : list (nat * list A)) (L : list A) : res (list A) :=
    match recs with [] => Ok L | (r, funcs) :: recs => res_bind (fill g r 0 funcs L) (fill_all g recs) end.
  (** 142-149 *)
  Fixpoint add_grid (columns : list string) (g col_length : nat) (recs : records) (cis : index) (t : tbl) : res tbl :=
    match cis with
    | [] => Ok t
    | (_, (col_key, c)) :: cis =>
        let col_name := ("(" +:+ String.concat "," (terms columns col_key) +:+ ")")%string in
        res_bind (fill_all g (dget_or recs c []) (replicate col_length none)) (λ L,
        res_bind (add_unique t col_name L) (add_grid columns g col_length recs cis))
    end.
  Definition values_as_rows (rows columns : list string) (functions : list (string * string)) (s : index * index * records) : res tbl :=
    let '(ris, cis, recs) := s in
    let '(keys, funs) := key_lists (length rows) functions ris in
    let cols := keys ++ [funs] in
    res_bind (add_uniques [] (zip (rows ++ ["function"]) cols)) (λ t,
    add_grid columns (length functions) (length (default [] (head cols))) recs cis t).

  (** ** 151-178: more columns *)
  (** 174-176 *)
  Fixpoint fill_cols (r : nat) (cols : list (list A)) (funcs : list A) : res (list (list A)) :=
    match funcs, cols with
    | [], _ => Ok cols
    | _ :: _, [] => Err IndexError
    | f :: funcs, col :: cols => res_bind (set_at col r f) (λ col, res_map (cons col) (fill_cols r cols funcs))
    end.
  Fixpoint fill_all_cols (recs : list (nat * list A)) (cols : list (list A)) : res (list (list A)) :=
    match recs with [] => Ok cols | (r, funcs) :: recs => res_bind (fill_cols r cols funcs) (fill_all_cols recs) end.
  (** 167-173: the names, all taken from the table as it is before; [last]: the last [func_key] *)
  Definition batch (columns : list string) (functions : list (string * string)) (last : list A) (col_key : list A) : list string :=
    map (λ p : string * string * A, (p.1.2 +:+ "(" +:+ String.concat "," (p.1.1 :: terms columns col_key) +:+ ")")%string) (zip functions last).
  (** 164-178 *)
  Fixpoint add_cols (columns : list string) (functions : list (string * string)) (last : list A) (col_length : nat)
      (recs : records) (cis : index) (t : tbl) : res tbl :=
    match cis with
    | [] => Ok t
    | (_, (col_key, c)) :: cis =>
        match mapM (λ n, unique_name n t.*1) (batch columns functions last col_key) with
        | None => Err OtherError
        | Some names =>
            res_bind (fill_all_cols (dget_or recs c []) (map (λ _, replicate col_length none) names)) (λ cols,
            add_cols columns functions last col_length recs cis (fold_left (λ t c, tbl_set ty ps t c.1 c.2) (zip names cols) t))
        end
    end.
  Definition values_as_columns (rows columns : list string) (functions : list (string * string)) (last : list A) (s : index * index * records) : res tbl :=
    let '(ris, cis, recs) := s in
    let keys := fold_left (λ cols (k : list E * (list A * nat)), add_keys cols k.2.1) ris (replicate (length rows) []) in
    let t := fold_left (λ t c, tbl_set ty ps t c.1 c.2) (zip rows keys) [] in
    add_cols columns functions last (length ris) recs cis t.

  (** 94-182, from the rows of the groups *)
  Definition pivot_grid (rows columns : list string) (functions : list (string * string)) (as_rows : bool) (grouped : list (list A)) : res tbl :=
    match list.last grouped with
    | None => Ok []                                                                   (* 89-91 *)
    | Some row =>
        res_bind (grid_rows (length rows) (length columns) ([], [], []) grouped) (λ s,
        if as_rows then values_as_rows rows columns functions s
        else values_as_columns rows columns functions (drop (length rows + length columns) row) s)
    end.
End Grid.

(** 11-182 *)
Definition pivot {E T : Type} `{EqDecision E, EqDecision T} (ek : pyval → E) (show : pyval → string) (sqrt : Qc → Qc) (ty : pyval → T) (ps : Z)
    (t : table string pyval T) (rows columns : list string) (functions : list (string * string)) (as_rows : bool) : res (table string pyval T) :=
  res_bind (tbl_groupby sqrt ty ps t (rows ++ columns) functions) (λ grpby,
  res_bind (tbl_rows VNone grpby) (pivot_grid ek VNone VStr show ty ps rows columns functions as_rows)).
