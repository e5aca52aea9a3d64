(** Histories of operations on one column (tablite/base.py class [Column]). *)
From Verif.Model Require Export Column.
Local Open Scope Z_scope.

Section ops.
  Context {A T : Type} `{EqDecision T} (ty : A → T).
  Context (cast : list (page A T) → A → res A) (ps : Z).

  (** One call on a column; the comment gives the Python statement and the
      lines in base.py of the function it runs. *)
  Inductive col_op :=
  | OpExtend (vs : list A)             (* col.extend(vs), col += vs   252, 844 *)
  | OpExtendCol (d : column A T)       (* col.extend(d), col += d     258, 848 *)
  | OpClear                            (* col.clear()                 271 *)
  | OpSetItem (i : Z) (v : A)          (* col[i] = v                  430 *)
  | OpSetSlice (s : pyslice) (vs : list A)  (* col[s] = vs            395 *)
  | OpDelItem (i : Z)                  (* del col[i]                  620 *)
  | OpDelSlice (s : pyslice)           (* del col[s]                  635 *)
  | OpImul (n : Z)                     (* col *= n                    805 *)
  | OpRemoveAll (eqb : A → A → bool) (vs : list A). (* col.remove_all(vs)  870 *)

  Definition col_do (c : column A T) (o : col_op) : res (column A T) :=
    match o with
    | OpExtend vs => Ok (col_extend ty ps c vs)
    | OpExtendCol d => Ok (col_extend_col c d)
    | OpClear => Ok (col_clear c)
    | OpSetItem i v => col_setitem ty c i v
    | OpSetSlice s vs => col_setslice ty cast ps c s vs
    | OpDelItem i => col_delitem c i
    | OpDelSlice s => col_delslice ty ps c s
    | OpImul n => col_imul c n
    | OpRemoveAll eqb vs => Ok (col_remove_all eqb c vs)
    end.

  (** A call that raises leaves the column as it is: in all the functions
      above the assignment to [self.pages] comes last. *)
  Definition col_try (c : column A T) (o : col_op) : column A T :=
    match col_do c o with Ok c' => c' | Err _ => c end.

  Definition col_run (c : column A T) (os : list col_op) : column A T := fold_left col_try os c.
End ops.
Arguments col_op : clear implicits.

(** The columns that a program can build with [Column(values)] and the
    operations for which [allowed] holds, including from other columns so built. *)
Inductive built {A T} `{EqDecision T} (ty : A → T) cast (ps : Z) (allowed : col_op A T → Prop)
    : column A T → Prop :=
| built_new vs : built ty cast ps allowed (col_new ty ps vs)
| built_op c o c' :
    built ty cast ps allowed c → allowed o →
    (∀ d, o = OpExtendCol d → built ty cast ps allowed d) →
    col_do ty cast ps c o = Ok c' →
    built ty cast ps allowed c'.
