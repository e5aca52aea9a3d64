(** tablite/merge.py 7-50 [where].

    [promote l r v]: what [np.where] makes of the value [v] when the other operands are the arrays
    [l] and [r], whose common dtype the result has (an int among texts becomes a text). *)
From stdpp Require Import strings.
From Verif.Model Require Export Table Names PageSteps.
Local Open Scope Z_scope.

(** [np.where(c, l, r)] of arrays with one dimension: lengths other than one have to agree, arrays
    of length one are repeated. *)
Section np_where.
  Context {A : Type} (promote : list A → list A → A → A).
  Definition stretch {X} (n : nat) (l : list X) : list X :=
    match l with [x] => replicate n x | _ => l end.
  Definition np_where (c : list bool) (l r : list A) : res (list A) :=
    let dims := filter (λ n, n ≠ 1%nat) [length c; length l; length r] in
    let n := default 1%nat (head dims) in
    if forallb (λ m, bool_decide (m = n)) dims then
      Ok (zip_with (λ (b : bool) (p : A * A), promote l r (if b then p.1 else p.2)) (stretch n c) (zip (stretch n l) (stretch n r)))
    else Err ValueError.
End np_where.

Section Merge.
  Context {A T : Type} `{EqDecision T} (ty : A → T) (promote : list A → list A → A → A) (ps : Z).
  Notation tbl := (table string A T).

  (** [T[name][start:end]] *)
  Definition page_values (t : tbl) (name : string) (step : Z * Z) : res (list A) :=
    match dget t name with
    | None => Err KeyError
    | Some c => col_getslice c (Slice (Some step.1) (Some step.2) None)
    end.

  (** 32-36; the table after the loop, also when it is left by an exception *)
  Fixpoint where_loop (t : tbl) (criteria : list bool) (left right new_uq : string) (steps : list (Z * Z)) : res tbl * tbl :=
    match steps with
    | [] => (Ok t, t)
    | step :: steps =>
        match res_bind (page_values t left step) (λ left_values,
              res_bind (page_values t right step) (λ right_values, np_where promote criteria left_values right_values)) with
        | Err e => (Err e, t)
        | Ok new_values =>
            where_loop (dset t new_uq (col_extend ty ps (default [] (dget t new_uq)) new_values)) criteria left right new_uq steps
        end
    end.

  (** [T[name] = T[new_uq]]: both names have the column *)
  Definition set_same (t : tbl) (name new_uq : string) : tbl := dset t name (default [] (dget t new_uq)).
  (** [del T[name]] for several names; the table is left as it is at the exception *)
  Fixpoint del_all (t : tbl) (names : list string) : res tbl * tbl :=
    match names with
    | [] => (Ok t, t)
    | n :: names => match tbl_del t n with Ok t => del_all t names | Err e => (Err e, t) end
    end.

  (** 7-50; [criteria] as an array of bools.  The second component is [T] after the call. *)
  Definition where_ (t : tbl) (criteria : list bool) (left right new : string) : res tbl * tbl :=
    match unique_name new t.*1 with
    | None => (Err OtherError, t)                                             (* not reached: C48 *)
    | Some new_uq =>
        let t := dset t new_uq [] in                                          (* 29: the name is free *)
        match where_loop t criteria left right new_uq (page_steps ps (zlen criteria)) with
        | (Err e, t) => (Err e, t)
        | (Ok t, _) =>
            if decide (new = right) then del_all (set_same t right new_uq) [new_uq; left]
            else if decide (new = left) then del_all (set_same t left new_uq) [new_uq; right]
            else del_all (set_same t new new_uq) [left; right]
        end
    end.
End Merge.
