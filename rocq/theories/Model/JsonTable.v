(** tablite/base.py [to_dict] (1859-1890) and [as_json_serializable] (1892-1925), tablite/export_utils.py [to_json]
    (139-143), tablite/import_utils.py [from_json] (112-122).

    Simplifications: [json.loads(json.dumps(d))] is [d] (dicts with texts as keys, lists of None, ints, floats and texts);
    the step of a slice is not 0; names are texts. *)
From Coq Require Import String.
From Verif.Model Require Export Table Codec Names.
Local Open Scope list_scope.
Local Open Scope Z_scope.

(** a list comprehension *)
Fixpoint map_res {A B} (f : A → res B) (l : list A) : res (list B) :=
  match l with
  | [] => Ok []
  | x :: l => res_bind (f x) (λ y, res_map (cons y) (map_res f l))
  end.

Section JsonTable.
  Context {T : Type} `{EqDecision T} (ty : cval → T) (ps : Z) (fshow : fval → text).
  Local Notation table := (table string cval T).

  (** base.py 1881-1882, 1910-1911 *)
  Definition all_rows (t : table) (slice_ : option pyslice) : pyslice :=
    default (Slice (Some 0) (Some (tbl_len t)) None) slice_.

  (** base.py 1881-1890 *)
  Definition to_dict (t : table) (columns : option (list string)) (slice_ : option pyslice) : res (list (string * list cval)) :=
    let columns := default t.*1 columns in
    fold_left (λ acc name, res_bind acc (λ d,
        match dget t name with
        | Some c => res_map (dset d name) (col_getslice c (all_rows t slice_))
        | None => Err KeyError
        end)) columns (Ok []).

  (** base.py 1910-1925: the columns and [total_rows] *)
  Definition as_json_serializable (t : table) (row_count : option string) (start_on : Z) (columns : option (list string))
      (slice_ : option pyslice) : res (list (string * list json) * Z) :=
    let '(start, stop, step) := slice_indices (all_rows t slice_) (tbl_len t) in
    let new := match row_count with
               | Some rc => [(rc, map (λ i, JInt (i + start_on)) (py_range start stop step))]
               | None => []
               end in
    res_bind (to_dict t columns slice_) (λ d,
      res_map (λ new, (new, tbl_len t))
        (fold_left (λ acc e, res_bind acc (λ new,
            match unique_name e.1 new.*1 with
            | Some new_k => res_map (dset new new_k) (map_res (to_json fshow) e.2)
            | None => Err OtherError
            end)) d (Ok new))).

  (** the values of a JSON text *)
  Definition value_of (j : json) : cval :=
    match j with JNull => CNone | JInt z => CInt z | JFloat f => CFloat f | JStr s => CStr s end.

  (** export_utils.py 139-143 and import_utils.py 112-122 *)
  Definition table_to_json (t : table) : res (list (string * list json) * Z) := as_json_serializable t (Some "row id"%string) 1 None None.
  Definition table_from_json (d : list (string * list json) * Z) : table := tbl_of_columns ty ps (map (λ c, (c.1, map value_of c.2)) d.1).
End JsonTable.
