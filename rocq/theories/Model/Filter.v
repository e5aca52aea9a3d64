(** nimlite/funcs/filter.nim: the native filter; tablite/redux.py [filter] (the list case).

    [cmp] is the comparison of two values by a filter method (pytypes/pycmp.nim, see NimCmp.v).
    Pages are read whole ([readNumpy]); [originalPage[slice]] keeps the values at the listed
    positions; a page's type counts are taken of its values. *)
From Verif.Model Require Export Table.
Local Open Scope Z_scope.

(** filter.nim 9-16 *)
Inductive fmethod := FM_GT | FM_GE | FM_EQ | FM_LT | FM_LE | FM_NE | FM_IN.
Inductive ftype := FT_ALL | FT_ANY.

Section Filter.
  Context {N A T : Type} `{EqDecision N, EqDecision T} (ty : A → T) (none : A) (ps : Z).
  Context (cmp : fmethod → A → A → bool).

  Local Notation tbl := (list (N * column A T)).

  (** line 22: [ExpressionValue] holds a column name or a value, line 23: [Expression] *)
  Inductive xvalue := XCol (n : N) | XVal (v : A).
  Definition expression : Type := xvalue * fmethod * xvalue.

  (** lines 139-140: [exprCols], the columns in order of first use *)
  Definition add_col (exprCols : list N) (x : xvalue) : list N :=
    match x with
    | XCol c => if decide (c ∈ exprCols) then exprCols else exprCols ++ [c]
    | XVal _ => exprCols
    end.
  Definition expr_cols (xs : list expression) : list N :=
    fold_left (λ e x, add_col (add_col e x.1.1) x.2) xs [].

  (** lines 136-137 (and 169-214) *)
  Definition known (columns : list N) (x : xvalue) : bool :=
    match x with XCol c => bool_decide (c ∈ columns) | XVal _ => true end.

  (** lines 25-49 [iterateRows]: every iterator is asked for its next value; the loop ends
      as soon as one of them has none.  [fuel]: the length of the first column. *)
  Fixpoint iterate_rows (fuel : nat) (its : list (list A)) : list (list A) :=
    match nexts its with
    | Err _ => []
    | Ok r => match fuel with O => [] | S fuel => r.1 :: iterate_rows fuel r.2 end
    end.

  (** lines 52-60 [extractValue]: [exprCols.find], then [row[idx]] *)
  Fixpoint find_col (exprCols : list N) (row : list A) (c : N) : option A :=
    match exprCols, row with
    | n :: exprCols, x :: row => if decide (n = c) then Some x else find_col exprCols row c
    | _, _ => None
    end.
  Definition extract_value (row : list A) (exprCols : list N) (x : xvalue) : option A :=
    match x with XVal v => Some v | XCol c => find_col exprCols row c end.

  (** lines 62-77; an index out of range cannot be caught: [false] stands for it *)
  Definition check_expression (row : list A) (exprCols : list N) (x : expression) : bool :=
    match extract_value row exprCols x.1.1, extract_value row exprCols x.2 with
    | Some l, Some r => cmp x.1.2 l r
    | _, _ => false
    end.

  (** lines 79-82 *)
  Definition check_expressions (row : list A) (exprCols : list N) (xs : list expression) (t : ftype) : bool :=
    match t with
    | FT_ANY => existsb (check_expression row exprCols) xs
    | FT_ALL => forallb (check_expression row exprCols) xs
    end.

  (** lines 221-230 [dumpSlice] *)
  Definition dump_slice (values : list A) : column A T :=
    match values with [] => [] | _ => [new_page ty values] end.

  (** lines 232-239: skip the pages before [offset] *)
  Fixpoint first_page (offset currentOffset : Z) (pages : column A T) : option (Z * column A T) :=
    match pages with
    | [] => None
    | p :: rest =>
        if offset <? currentOffset + plen p then Some (currentOffset, pages)
        else first_page offset (currentOffset + plen p) rest
    end.

  (** the values of the page at the positions of the true (false) bits *)
  Definition pick_bits (b : bool) (bits : list bool) (values : list A) : list A :=
    omap (λ q, if eqb q.1 b then Some q.2 else None) (zip bits values).

  (** lines 244-264: [mask] is what is left of the bitmask.  Results: new pages of the
      pass column and of the fail column; IndexError: no page left. *)
  Fixpoint dump_loop (mask : list bool) (indiceOffset : Z) (pages : column A T) : res (column A T * column A T) :=
    match mask with
    | [] => Ok ([], [])
    | _ =>
        match pages with
        | [] => Err IndexError
        | p :: rest =>
            let len := plen p - indiceOffset in
            let sliceLen := Z.min (zlen mask) len in
            let bits := take (Z.to_nat sliceLen) mask in
            let values := drop (Z.to_nat indiceOffset) (pdata p) in
            res_map (λ r, (dump_slice (pick_bits true bits values) ++ r.1,
                           dump_slice (pick_bits false bits values) ++ r.2))
                    (dump_loop (drop (Z.to_nat sliceLen) mask) 0 rest)
        end
    end.
  (** lines 216-264 [dumpPage] *)
  Definition dump_page (offset : Z) (mask : list bool) (pages : column A T) : res (column A T * column A T) :=
    match first_page offset 0 pages with
    | None => Err IndexError
    | Some (currentOffset, rest) => dump_loop mask (offset - currentOffset) rest
    end.

  (** lines 266-268 [dumpPages]: the columns, the pass columns and the fail columns *)
  Definition col_state : Type := N * (column A T * (column A T * column A T)).
  Fixpoint dump_pages (offset : Z) (mask : list bool) (cols : list col_state) : res (list col_state) :=
    match cols with
    | [] => Ok []
    | (n, (c, (p, f))) :: cols =>
        res_bind (dump_page offset mask c) (λ r,
        res_map (cons (n, (c, (p ++ r.1, f ++ r.2)))) (dump_pages offset mask cols))
    end.

  (** lines 280-293.  [mask]: the first [bitNum] entries of the bitmask *)
  Fixpoint filter_loop (test : list A → bool) (rows : list (list A)) (mask : list bool) (offset : Z)
      (cols : list col_state) : res (list col_state) :=
    match rows with
    | [] => match mask with [] => Ok cols | _ => dump_pages offset mask cols end
    | r :: rows =>
        let mask := mask ++ [test r] in
        if ps <=? zlen mask then
          res_bind (dump_pages offset mask cols) (λ cols,
          filter_loop test rows [] (offset + zlen mask) cols)
        else filter_loop test rows mask offset cols
    end.

  (** lines 84-308.  Without a column in the expressions [iterateRows] never ends and
      [dumpPage] runs out of pages.  [tbl[k] = v] for every column. *)
  Definition nim_filter (t : tbl) (xs : list expression) (ft : ftype)
    : res (tbl * tbl) :=
    match xs, t with
    | [], _ | _, [] => Ok (t, [])
    | _, (_, c0) :: _ =>
        if negb (forallb (λ c, col_len c.2 =? col_len c0) t) then Err ValueError
        else if negb (forallb (λ x, known t.*1 x.1.1 && known t.*1 x.2) xs) then Err ValueError
        else
          let exprCols := expr_cols xs in
          match omap (λ n, dget t n) exprCols with
          | [] => Err IndexError
          | (e0 :: _) as es =>
              let rows := iterate_rows (length (col_iter e0)) (map col_iter es) in
              res_map (λ st, (map (λ s, (s.1, s.2.2.1)) st, map (λ s, (s.1, s.2.2.2)) st))
                (filter_loop (λ row, check_expressions row exprCols xs ft) rows [] 0
                   (map (λ c, (c.1, (c.2, ([], [])))) t))
          end
    end.

  (** redux.py [filter] with a list: 382-395 *)
  Definition tbl_filter (t : tbl) (xs : list expression) (ft : ftype)
    : res (tbl * tbl) :=
    if tbl_len t =? 0 then Ok (t, t) else nim_filter t xs ft.
End Filter.
Arguments xvalue : clear implicits.
Arguments expression : clear implicits.
Arguments XCol {N A} n.
Arguments XVal {N A} v.
