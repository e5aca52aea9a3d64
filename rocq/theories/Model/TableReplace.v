(** tablite/core.py 500-528: [Table.replace], in place.  Lines are of core.py if no file is named.

    Simplifications: the columns do not share pages (for shared pages see Heap.v); the progress bar is left
    out; the counts of types of a page whose replacement raised are left as they were. *)
From Verif.Model Require Export Column.
Local Open Scope Z_scope.

(** the argument [columns]: None, a name, or a list of names *)
Inductive columns_arg (N : Type) := AllColumns | OneName (n : N) | Names (ns : list N).
Arguments AllColumns {N}. Arguments OneName {N}. Arguments Names {N}.

Section table.
  Context {N A T : Type} `{EqDecision N, EqDecision T}.
  Context (ty : A → T) (cast : list (page A T) → A → res A) (np_array : list A → list A) (eqb : A → A → bool).
  Notation column := (column A T).
  Notation table := (list (N * column)).

  (** base.py 904-925: the pages and the exception, if any; the pages before it have been replaced *)
  Fixpoint replace_pages (mapping : list (A * A)) (c : column) : column * option exn :=
    match c with
    | [] => ([], None)
    | p :: c =>
        match replace_page ty cast np_array eqb mapping p with
        | Err e => (p :: c, Some e)
        | Ok p => let '(c, e) := replace_pages mapping c in (p :: c, e)
        end
    end.

  (** [self.columns[name]] *)
  Definition column_of (t : table) (n : N) : option column := snd ∘ snd <$> list_find (λ nc, nc.1 = n) t.
  (** the column [n] of [t] holds the pages [c] now *)
  Definition put_column (t : table) (n : N) (c : column) : table :=
    map (λ nc, if decide (nc.1 = n) then (n, c) else nc) t.

  (** 525-528 *)
  Fixpoint replace_columns (mapping : list (A * A)) (ns : list N) (t : table) : table * option exn :=
    match ns with
    | [] => (t, None)
    | n :: ns =>
        match column_of t n with
        | None => (t, Some KeyError)
        | Some c =>
            match replace_pages mapping c with
            | (c, Some e) => (put_column t n c, Some e)
            | (c, None) => replace_columns mapping ns (put_column t n c)
            end
        end
    end.

  (** 512-528: the table afterwards and the exception, if any *)
  Definition table_replace (mapping : list (A * A)) (columns : columns_arg N) (t : table) : table * option exn :=
    let names := map fst t in
    match
      match columns with
      | AllColumns => Ok names
      | OneName n => if decide (n ∈ names) then Ok [n] else Err TypeError
      | Names ns => Ok ns
      end
    with
    | Err e => (t, Some e)
    | Ok ns =>
        if forallb (λ n, bool_decide (n ∈ names)) ns then replace_columns mapping ns t else (t, Some ValueError)
    end.
End table.
