(** tablite/pivots.py: [transpose] (185-198), [pivot_transpose] (201-288).

    [name_val]: a column name as a value; [as_key]: a value as a key of the dict of columns (equal
    keys for values that are [==] and hash alike).  [np_array]: [np.array] of a list of values. *)
From Verif.Model Require Export Table Names.
Local Open Scope Z_scope.

Section Transpose.
  Context {N A T : Type} `{EqDecision N, EqDecision T} (ty : A → T) (none : A) (ps : Z).
  Context (name_val : N → A) (as_key : A → N).

  (** 185-198 *)
  Definition transpose (t : table N A T) : res (table N A T) :=
    match t with
    | [] => Ok []
    | (first, _) :: rest =>
        let new := tbl_set ty ps [] first (map name_val rest.*1) in
        res_map (λ rows, fold_left (λ new row, match row with
                                       | key :: values => tbl_set ty ps new (as_key key) values
                                       | [] => new
                                                 end) rows new) (tbl_rows none t)
    end.
End Transpose.

Section PivotTranspose.
  Context {A T : Type} `{EqDecision T} (ty : A → T) (none : A) (ps : Z).
  Context (name_val : string → A) (np_array : list A → list A).
  (** Config.SINGLE_PROCESSING_LIMIT *)
  Context (limit : Z).
  Notation tbl := (table string A T).

  (** [news[name] += values] *)
  Definition add_to (news : list (string * list A)) (name : string) (values : list A) : list (string * list A) :=
    dset news name (dget_or news name [] ++ values).

  (** 269-276: one row *)
  Definition pt_row (columns keep : list string) (column_name value_name : string)
      (news : list (string * list A)) (row : list A) : list (string * list A) :=
    let n := length keep in
    let keeps := take n row in
    let transposes := drop n row in
    let news := fold_left (λ d p, add_to d p.1 (replicate (length transposes) p.2)) (zip keep keeps) news in
    fold_left (λ d p, add_to (add_to d column_name [name_val p.1]) value_name [p.2]) (zip columns transposes) news.

  (** [new[name].extend(values)] for all items *)
  Definition flush (new : tbl) (news : list (string * list A)) : res tbl := (extend_cols ty ps new news).1.

  (** 268-283; [ix]: number of the next row *)
  Fixpoint pt_loop (columns keep : list string) (column_name value_name : string)
      (ix : Z) (new : tbl) (news : list (string * list A)) (rows : list (list A))
      : res (tbl * list (string * list A)) :=
    match rows with
    | [] => Ok (new, news)
    | row :: rows =>
        let news := pt_row columns keep column_name value_name news row in
        if ix mod limit =? 0 then
          res_bind (flush new news) (λ new,
            pt_loop columns keep column_name value_name (ix + 1) new (map (λ c, (c.1, [])) news) rows)
        else pt_loop columns keep column_name value_name (ix + 1) new news rows
    end.

  (** 266: the rows to iterate over *)
  Definition pt_rows (t : tbl) (names : list string) : res (list (list A)) :=
    res_bind (tbl_getitem ty ps t (map KName names)) (λ s,
      match s with
      | SelTable u => tbl_rows none u
      | SelColumn c => Ok (map (λ v, [v]) (col_iter c))
      | SelRow r => Ok (map (λ v, [v]) r) (* not for names *)
      end).

  (** 235-288: [columns] and [keep] are checked, then the names of the new columns *)
  Definition pivot_transpose (t : tbl) (columns keep : list string) (column_name value_name : string) : res tbl :=
    if negb (forallb (λ i, bool_decide (i ∈ t.*1)) columns) then Err ValueError else
    if negb (bool_decide (NoDup columns)) then Err ValueError else
    if negb (forallb (λ i, bool_decide (i ∈ t.*1)) keep) then Err ValueError else
    match (if decide (column_name ∈ keep ++ columns) then unique_name column_name (keep ++ columns)
           else Some column_name) with
    | None => Err OtherError (* not reached: C48 *)
    | Some column_name =>
        match (if decide (value_name ∈ keep ++ columns ++ [column_name]) then unique_name value_name (keep ++ columns)
               else Some value_name) with
        | None => Err OtherError
        | Some value_name =>
            let new : tbl := fold_left (λ new n, dset new n []) (keep ++ [column_name; value_name]) [] in
            let news := map (λ c, (c.1, [])) new in
            res_bind (pt_rows t (keep ++ columns)) (λ rows,
            res_bind (pt_loop columns keep column_name value_name 1 new news rows) (λ s,
              (* 285-287 *)
              flush s.1 (map (λ c, (c.1, np_array c.2)) s.2)))
        end
    end.
End PivotTranspose.
