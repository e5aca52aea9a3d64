(** tablite/utils.py 483-503 [select_type_name], [get_predominant_types]; base.py 1665-1683 [types] of a table.

    [none_type] is NoneType, [type_name] gives [__name__] of a type. *)
From Coq Require Import String.
From Verif.Spec Require Import PySort.
From Verif.Model Require Export Table.
Local Open Scope list_scope.
Local Open Scope Z_scope.

Section Predominant.
  Context {N A T : Type} `{EqDecision T} (none_type : T) (type_name : T → string).
  Notation tbl := (table N A T).

  (** base.py 1665-1683 *)
  Definition tbl_types (t : tbl) : list (N * list (T * Z)) := map (λ c, (c.1, col_types c.2)) t.

  (** utils.py 483-491; [sorted(..., reverse=True)] keeps the order of equal counts *)
  Definition select_type_name (dtypes : list (T * Z)) : string :=
    let dtypes := filter (λ t, t.1 ≠ none_type) dtypes in
    match py_sort (λ a b, b.2 <=? a.2) dtypes with
    | [] => "empty"
    | best :: _ => type_name best.1
    end.

  (** utils.py 494-503 *)
  Definition get_predominant_types (t : tbl) (all_dtypes : option (list (N * list (T * Z)))) : list (N * string) :=
    let all_dtypes := match all_dtypes with None => tbl_types t | Some d => d end in
    map (λ c, (c.1, select_type_name c.2)) all_dtypes.
End Predominant.
