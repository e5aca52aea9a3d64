(** tablite/joins.py [_mp_where] (304-336) and [_join] (409-569) with [merge_keys]; [join] (16-110).

    Simplifications as in Model/Joins.v: the tasks run in order.  [np.where] keeps the values: where it changes their type, as an
    array of ints and one of floats, the two values of a row are equal keys, hence equal in Python. *)
From stdpp Require Import strings.
From Verif.Spec Require Export JoinMerge.
From Verif.Model Require Export Joins Merge.
Local Open Scope Z_scope.

Section JoinMerge.
  Context {A T : Type} `{EqDecision T} (ty : A → T) (none : A) (ps : Z).
  Notation tbl := (table string A T).

  (** 304-336 for the page [step], then [result["bmap"][:]] (557) *)
  Definition mp_where (new_table : tbl) (bmap : column bool unit) (left right : string) (step : Z * Z) : res (list A) :=
    res_bind (col_getslice bmap (Slice (Some step.1) (Some step.2) None)) (λ criteria,
    res_bind (page_values new_table left step) (λ left_values,
    res_bind (page_values new_table right step) (λ right_values,
    res_bind (np_where (λ _ _ v, v) criteria left_values right_values) (λ new_values,
    col_getslice (col_new ty ps new_values) (Slice None None None))))).

  (** The loop of [unique_name] ends: C48. *)
  Definition right_key_name (t : tbl) (name : string) : string := default name (unique_name name t.*1).

  (** 526-527 *)
  Definition boolean_map (kind : join_kind) (pairs : list (Z * Z)) : list bool :=
    match kind with Outer => map (λ p, negb (p.1 =? -1)) pairs | _ => map (λ p, p.2 =? -1) pairs end.

  (** 530-546: left column, right column and page of each task *)
  Definition where_tasks (t : tbl) (n : Z) (left_keys right_keys : list string) : list (string * string * (Z * Z)) :=
    concat (map (λ k, map (λ step, (k.1, right_key_name t k.2, step)) (page_steps ps n)) (zip left_keys right_keys)).

  (** 548-552 *)
  Fixpoint run_tasks (new_table : tbl) (bmap : column bool unit) (tasks : list (string * string * (Z * Z))) : res (list (list A)) :=
    match tasks with
    | [] => Ok []
    | (l, r, step) :: tasks =>
        res_bind (mp_where new_table bmap l r step) (λ values, res_map (cons values) (run_tasks new_table bmap tasks))
    end.

  (** 554-557; the slice has a start and a stop: base.py 421-422 *)
  Fixpoint put_results (new_table : tbl) (tasks : list (string * string * (Z * Z))) (results : list (list A)) : res tbl :=
    match tasks, results with
    | (l, _, step) :: tasks, values :: results =>
        match dget new_table l with
        | None => Err KeyError
        | Some c => put_results (dset new_table l (setitem_insert ty ps c (Slice (Some step.1) (Some step.2) None) values)) tasks results
        end
    | _, _ => Ok new_table
    end.

  (** 561-562 *)
  Fixpoint del_keys (t : tbl) (right_keys : list string) (new_table : tbl) : res tbl :=
    match right_keys with
    | [] => Ok new_table
    | name :: right_keys => res_bind (tbl_del new_table (right_key_name t name)) (del_keys t right_keys)
    end.

  (** 524-562: step 5 *)
  Definition merge_step (kind : join_kind) (t : tbl) (pairs : list (Z * Z)) (left_keys right_keys : list string) (new_table : tbl) : res tbl :=
    res_bind
      (match kind with
       | Outer | Left =>
           let bmap := col_new (λ _, tt) ps (boolean_map kind pairs) in
           if bool_decide (left_keys = []) then Err ZeroDivisionError                                (* 529 *)
           else
             let tasks := where_tasks t (zlen pairs) left_keys right_keys in
             res_bind (run_tasks new_table bmap tasks) (put_results new_table tasks)
       | Inner | Cross => Ok new_table
       end) (del_keys t right_keys).

  (** 448-452 *)
  Definition join_mapping {K} `{EqDecision K} (keyc : A → K) (set_order : list (list K) → list (list K))
      (kind : join_kind) (t u : tbl) (left_keys right_keys : list string) : res (list (Z * Z)) :=
    match kind with
    | Cross => cross_mapping (tbl_len t) (tbl_len u)
    | _ => res_bind (tbl_index keyc t left_keys) (λ li,
           res_bind (tbl_index keyc u right_keys) (λ ri,
           Ok (match kind with
               | Inner => inner_mapping li ri
               | Left => left_mapping li ri
               | _ => outer_mapping set_order li ri
               end)))
    end.

  (** 16-110 and 409-569 *)
  Definition join_with {K} `{EqDecision K} (keyc : A → K) (set_order : list (list K) → list (list K)) (merge_keys : bool)
      (kind : join_kind) (t u : tbl) (left_keys right_keys left_columns right_columns : list string) : res tbl :=
    res_bind (jointype_check t u left_keys right_keys left_columns right_columns) (λ _,
    res_bind (join_mapping keyc set_order kind t u left_keys right_keys) (λ pairs,
    let left := int_col ps pairs.*1 in
    let right := int_col ps pairs.*2 in
    let n := Z.max (col_len left) (col_len right) in
    res_bind (join_left ty none ps t left n left_columns []) (λ new_table,
    res_bind (join_right ty none ps u right n right_columns new_table) (λ new_table,
    if merge_keys then merge_step kind t pairs left_keys right_keys new_table else Ok new_table)))).
End JoinMerge.

(** For the statements: the pairs of rows of a kind of join (Spec/Join.v). *)
Definition pairs_of {K} `{EqDecision K} (kind : join_kind) (lk rk : list K) (pairs : list (option Z * option Z)) : Prop :=
  match kind with
  | Inner => pairs = inner_pairs lk rk
  | Left => pairs = left_pairs lk rk
  | Outer => outer_pairs lk rk pairs
  | Cross => pairs = cross_pairs (length lk) (length rk)
  end.
