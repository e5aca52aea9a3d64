(** tablite/redux.py: [filter_all], [filter_any], [drop], [_compress_one], [compress_both],
    [filter] with a string.

    A criterion is a test of a single value: the callable, or [data == v].  Callables return
    bools (an int would be combined bit by bit). *)
From Verif.Model Require Export Table Filter PageSteps.
Local Open Scope Z_scope.

Section Redux.
  Context {N A T : Type} `{EqDecision N, EqDecision T} (ty : A → T) (none : A) (ps : Z).
  Local Notation tbl := (list (N * column A T)).

  (** redux.py 74-83, 95-101, 116-125: [mask[start:end] = op(mask[start:end], f(data))] for every
      page of the column *)
  Fixpoint mask_pages (op : bool → bool → bool) (f : A → bool) (start : nat) (c : column A T)
      (mask : list bool) : list bool :=
    match c with
    | [] => mask
    | p :: c =>
        let end_ := (start + length (pdata p))%nat in
        mask_pages op f end_ c
          (take start mask ++ zip_with op (drop start (take end_ mask)) (map f (pdata p)) ++ drop end_ mask)
    end.

  (** 71-83 / 116-125: the criteria in turn; [err] is raised for an unknown column *)
  Fixpoint mask_criteria (op : bool → bool → bool) (t : tbl) (crits : list (N * (A → bool))) (mask : list bool)
    : res (list bool) :=
    match crits with
    | [] => Ok mask
    | (k, f) :: crits =>
        match dget t k with
        | None => Err KeyError
        | Some col => mask_criteria op t crits (mask_pages op f 0 col mask)
        end
    end.

  (** [np.compress(mask, data)] *)
  Definition compress (mask : list bool) (data : list A) : list A := pick_bits true mask data.

  (** 130-142: the pieces of one column *)
  Fixpoint compress_col (mask : list bool) (c : column A T) (steps : list (Z * Z)) (acc : column A T)
    : res (column A T) :=
    match steps with
    | [] => Ok acc
    | (s, e) :: steps =>
        res_bind (col_getslice c (Slice (Some s) (Some e) None)) (λ data,
        compress_col mask c steps
          (col_extend ty ps acc (compress (py_getslice mask (Slice (Some s) (Some e) None)) data)))
    end.
  Fixpoint compress_cols (mask : list bool) (len : Z) (t : tbl) : res tbl :=
    match t with
    | [] => Ok []
    | (n, c) :: t =>
        res_bind (compress_col mask c (page_steps ps len) []) (λ c',
        res_map (cons (n, c')) (compress_cols mask len t))
    end.
  Definition compress_one (t : tbl) (mask : list bool) : res tbl := compress_cols mask (tbl_len t) t.

  (** 145-166: both loops of the original run over the same steps *)
  Definition compress_both (t : tbl) (mask : list bool) : res (tbl * tbl) :=
    res_bind (compress_cols mask (tbl_len t) t) (λ true_,
    res_map (λ false_, (true_, false_)) (compress_cols (map negb mask) (tbl_len t) t)).

  (** 34-85 [filter_all] *)
  Definition filter_all (t : tbl) (crits : list (N * (A → bool))) : res tbl :=
    if negb (forallb (λ kf, bool_decide (kf.1 ∈ t.*1)) crits) then Err ValueError
    else res_bind (mask_criteria andb t crits (replicate (Z.to_nat (tbl_len t)) true)) (compress_one t).

  (** 107-127 [filter_any] *)
  Definition filter_any (t : tbl) (crits : list (N * (A → bool))) : res tbl :=
    res_bind (mask_criteria orb t crits (replicate (Z.to_nat (tbl_len t)) false)) (compress_one t).

  (** 88-104 [drop]; [eqb] is Python's [==] *)
  Definition hit_mask (eq : A → A → bool) (args : list A) (t : tbl) (mask : list bool) : list bool :=
    fold_left (λ mask nc,
      mask_pages orb (λ x, existsb (eq x) args) 0 nc.2 mask) t mask.
  Definition tbl_drop (eqb : A → A → bool) (t : tbl) (args : list A) : res tbl :=
    compress_one t (map negb (hit_mask eqb args t (replicate (Z.to_nat (tbl_len t)) false))).

  (** 12-32 [_filter_using_expression] and 382-392: [occurs n]: the name is a part of the
      expression's text; [f] is the compiled function, over the occurring columns in table order.
      [T[req_columns].rows]: a Column (which has no [rows]) if there is one name. *)
  Definition filter_expr (t : tbl) (occurs : N → bool) (f : list A → bool) : res (tbl * tbl) :=
    if tbl_len t =? 0 then Ok (t, t) else
    let req := List.filter occurs t.*1 in
    res_bind (tbl_getitem ty ps t (map KName req)) (λ sel,
    match sel with
    | SelTable u => res_bind (tbl_rows none u) (λ rows, compress_both t (map f rows))
    | _ => Err AttributeError
    end).
End Redux.
