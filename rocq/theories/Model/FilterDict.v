(** Filters given as dictionaries: nimlite/funcs/filter.nim 84-202 (the native filter's reading of
    the dictionaries) and tablite/redux.py 169-348 (the obsolete filter).

    A dictionary is a list of entries with different keys; keys are texts, values are cell values.
    Not modelled: expressions that are no dictionaries, keys that are no texts, progress bars.
    [repr] is [toRepr] of pyobjs.nim, [str] is Python's [str]. *)
From Verif.Spec Require Import FilterDict.
From Verif.Model Require Export Filter NimCmp Redux Groupby.
Local Open Scope string_scope.
Local Open Scope list_scope.
Local Open Scope Z_scope.

Definition dict : Type := list (string * pyval).

(** filter.nim 5; redux.py 175 *)
Definition FILTER_KEYS : list string := ["column1"; "column2"; "criteria"; "value1"; "value2"].

(** filter.nim 187-197 *)
Definition method_of (criteria : string) : option fmethod :=
  if decide (criteria = ">") then Some FM_GT
  else if decide (criteria = ">=") then Some FM_GE
  else if decide (criteria = "==") then Some FM_EQ
  else if decide (criteria = "<") then Some FM_LT
  else if decide (criteria = "<=") then Some FM_LE
  else if decide (criteria = "!=") then Some FM_NE
  else if decide (criteria = "in") then Some FM_IN
  else None.

(** the method of an operator (for the statements) *)
Definition method (r : operator) : fmethod :=
  match r with RGt => FM_GT | RGe => FM_GE | REq => FM_EQ | RLt => FM_LT | RLe => FM_LE | RNe => FM_NE | RIn => FM_IN end.

Section native.
  Context {T : Type} `{EqDecision T} (ty : pyval → T) (ps : Z) (repr : pyval → string).
  Local Notation tbl := (list (string * column pyval T)).

  (** 92-97; [toLower] of ASCII letters *)
  Definition filter_type_of (name : string) : option ftype :=
    let s := to_lower name in
    if decide (s = "any") then Some FT_ANY else if decide (s = "all") then Some FT_ALL else None.

  (** 145-160: the object of a value; [implement] raises, [to(int)] has 64 bits *)
  Definition native_object (v : pyval) : res pyval :=
    match v with
    | VBytes _ | VDelta _ => Err OtherError
    | VInt z => if (- 2 ^ 63 <=? z) && (z <? 2 ^ 63) then Ok v else Err OtherError
    | _ => Ok v
    end.

  (** 127-162 [addParam] *)
  Definition add_param (columns : list string) (d : dict) (columnName valueName : string)
    : res (xvalue string pyval) :=
    match dget d columnName with
    | Some c =>
        match dget d valueName with
        | Some _ => Err ValueError
        | None =>
            match c with
            | VStr c => if decide (c ∈ columns) then Ok (XCol c) else Err ValueError
            | _ => Err OtherError
            end
        end
    | None =>
        match dget d valueName with
        | None => Err ValueError
        | Some v => res_map XVal (native_object v)
        end
    end.

  (** 166-202 *)
  Definition add_expression (columns : list string) (d : dict) : res (expression string pyval) :=
    if negb (zlen d =? 3) then Err ValueError
    else if negb (forallb (λ key, bool_decide (key ∈ FILTER_KEYS)) d.*1) then Err ValueError
    else
      match dget d "criteria" with
      | None => Err KeyError
      | Some (VStr criteria) =>
          match method_of criteria with
          | None => Err ValueError
          | Some crit =>
              res_bind (add_param columns d "column1" "value1") (λ lOpt,
              res_map (λ rOpt, (lOpt, crit, rOpt)) (add_param columns d "column2" "value2"))
          end
      | Some _ => Err OtherError
      end.

  Fixpoint add_expressions (columns : list string) (pyExpressions : list dict) : res (list (expression string pyval)) :=
    match pyExpressions with
    | [] => Ok []
    | e :: es => res_bind (add_expression columns e) (λ x, res_map (cons x) (add_expressions columns es))
    end.

  (** 84-308: the rest is [nim_filter] of Model/Filter.v *)
  Definition native_filter (t : tbl) (pyExpressions : list dict) (filterTypeName : string) : res (tbl * tbl) :=
    match filter_type_of filterTypeName with
    | None => Err ValueError
    | Some ft =>
        match pyExpressions, t with
        | [], _ | _, [] => Ok (t, [])
        | _, (_, c0) :: _ =>
            if negb (forallb (λ c, col_len c.2 =? col_len c0) t) then Err ValueError
            else res_bind (add_expressions t.*1 pyExpressions) (λ xs, nim_filter ty ps (nim_cmp repr) t xs ft)
        end
    end.

  (** redux.py 350-400 [filter] with a list of dictionaries *)
  Definition dict_filter (t : tbl) (expressions : list dict) (filter_type : string) : res (tbl * tbl) :=
    if tbl_len t =? 0 then Ok (t, t) else native_filter t expressions filter_type.
End native.

Section obsolete.
  Context {T : Type} `{EqDecision T} (ty : pyval → T) (ps : Z) (str : pyval → string).
  Local Notation tbl := (list (string * column pyval T)).

  (** mp_utils.py 13-17, 33-41; [operator.lt] and the others: None is a TypeError *)
  Definition _in (a b : pyval) : bool := is_part (str a) (str b).
  Definition filter_op (r : operator) (a b : pyval) : option bool :=
    match r with RIn => Some (_in a b) | _ => py_relation str r a b end.
  Definition filter_ops : list (string * operator) :=
    map (λ r, (sign r, r)) [RGt; RGe; REq; RLt; RLe; RNe; RIn].

  (** [d.get(k, None)] *)
  Definition get_none (d : dict) (k : string) : pyval := default VNone (dget d k).
  (** [c in T.columns] *)
  Definition has_column (t : tbl) (c : pyval) : bool :=
    match c with VStr n => bool_decide (n ∈ t.*1) | _ => false end.
  Definition not_none (v : pyval) : bool := bool_decide (v ≠ VNone).

  (** redux.py 182-196: the checks of one side *)
  Definition check_side (t : tbl) (c v : pyval) : res unit :=
    if not_none c && negb (has_column t c) then Err ValueError
    else if not_none v && not_none c then Err ValueError
    else Ok ().

  (** 170-196 *)
  Definition check_dict (t : tbl) (expression : dict) : res unit :=
    if negb (zlen expression =? 3) then Err ValueError
    else if negb (forallb (λ key, bool_decide (key ∈ FILTER_KEYS)) expression.*1) then Err ValueError
    else
      match dget expression "criteria" with
      | None => Err KeyError
      | Some criteria =>
          match (match criteria with VStr s => dget filter_ops s | _ => None end) with
          | None => Err ValueError
          | Some _ =>
              res_bind (check_side t (get_none expression "column1") (get_none expression "value1")) (λ _,
              check_side t (get_none expression "column2") (get_none expression "value2"))
          end
      end.

  (** 215-223: the values of one side in the rows [start:end] *)
  Definition side_values (t : tbl) (c v : pyval) (start stop : Z) : res (list pyval) :=
    match c with
    | VNone => Ok (replicate (Z.to_nat (stop - start)) v)
    | VStr n => match dget t n with
                | Some col => col_getslice col (Slice (Some start) (Some stop) None)
                | None => Err KeyError
                end
    | _ => Err KeyError
    end.

  (** 230-255: numpy compares element by element; a TypeError leads to [safe_test] *)
  Fixpoint compare_all (f : pyval → pyval → option bool) (ab : list (pyval * pyval)) : option (list bool) :=
    match ab with
    | [] => Some []
    | (a, b) :: ab =>
        match f a b with
        | None => None
        | Some x => cons x <$> compare_all f ab
        end
    end.
  Definition safe_test (f : pyval → pyval → option bool) (ab : pyval * pyval) : bool := default false (f ab.1 ab.2).
  Definition evaluate (f : pyval → pyval → option bool) (ab : list (pyval * pyval)) : list bool :=
    match compare_all f ab with
    | Some result => result
    | None => map (safe_test f) ab
    end.

  (** 204-256: a row of the bitmap; the steps are contiguous, what they write is joined *)
  Fixpoint bitmap_row (t : tbl) (expression : dict) (r : operator) (steps : list (Z * Z)) : res (list bool) :=
    match steps with
    | [] => Ok []
    | (start, stop) :: steps =>
        res_bind (side_values t (get_none expression "column1") (get_none expression "value1") start stop) (λ dset_A,
        res_bind (side_values t (get_none expression "column2") (get_none expression "value2") start stop) (λ dset_B,
        if negb (zlen dset_A =? zlen dset_B) then Err ValueError
        else res_map (app (evaluate (filter_op r) (zip dset_A dset_B))) (bitmap_row t expression r steps)))
    end.

  Fixpoint check_all (t : tbl) (expressions : list dict) : res unit :=
    match expressions with
    | [] => Ok ()
    | e :: es => res_bind (check_dict t e) (λ _, check_all t es)
    end.
  Fixpoint bitmap_rows (t : tbl) (expressions : list dict) : res (list (list bool)) :=
    match expressions with
    | [] => Ok []
    | e :: es =>
        match get_none e "criteria" with
        | VStr s =>
            match dget filter_ops s with
            | Some r => res_bind (bitmap_row t e r (page_steps ps (tbl_len t))) (λ b, res_map (cons b) (bitmap_rows t es))
            | None => Err OtherError
            end
        | _ => Err OtherError
        end
    end.
  (** 169-260 [get_filter_bitmap] *)
  Definition get_filter_bitmap (t : tbl) (expressions : list dict) : res (list (list bool)) :=
    res_bind (check_all t expressions) (λ _, bitmap_rows t expressions).

  (** [np.all(bitmap, axis=0)], [np.any(bitmap, axis=0)] of a bitmap with [n] columns *)
  Definition along (op : bool → bool → bool) (one : bool) (n : nat) (bitmap : list (list bool)) : list bool :=
    fold_left (zip_with op) bitmap (replicate n one).

  (** 262-294 [_filter_using_list_of_dicts] *)
  Definition filter_mask (t : tbl) (expressions : list dict) (filter_type : string) : res (list bool) :=
    if negb (bool_decide (filter_type ∈ ["all"; "any"])) then Err ValueError
    else
      res_map (λ bitmap,
        if decide (filter_type = "all") then along andb true (Z.to_nat (tbl_len t)) bitmap
        else along orb false (Z.to_nat (tbl_len t)) bitmap)
      (get_filter_bitmap t expressions).

  (** 296-348 [filter_non_primitive] with a list *)
  Definition filter_non_primitive (t : tbl) (expressions : list dict) (filter_type : string) : res (tbl * tbl) :=
    if tbl_len t =? 0 then Ok (t, t)
    else res_bind (filter_mask t expressions filter_type) (compress_both ty ps t).
End obsolete.
