(** tablite/match.py.

    [ltb]: the order by which numpy sorts (NaN last); [eqb]: [==]; [argsort]: [np.argsort], which
    fails for values that cannot be compared and has ties in any order. *)
From stdpp Require Import strings.
From Verif.Model Require Export Table Names Filter Merge PivotGrid.
Local Open Scope Z_scope.

Section Match.
  Context {A T : Type} `{EqDecision T} (ty : A → T) (ps : Z) (ltb eqb : A → A → bool) (argsort : list A → res (list nat)).
  Notation tbl := (table string A T).

  (** [x[index]] *)
  Definition gather {X} (x : list X) (index : list nat) : res (list X) :=
    match mapM (λ i, x !! i) index with Some l => Ok l | None => Err IndexError end.
  (** [np.searchsorted(sorted_x, v)]: the first position at which [v] could be inserted *)
  Definition searchsorted (sorted_x : list A) (v : A) : nat :=
    default (length sorted_x) (fst <$> list_find (λ x, ltb x v = false) sorted_x).
  (** [np.take(index, positions, mode="clip")] *)
  Definition take_clip (index positions : list nat) : res (list nat) :=
    gather index (map (λ i, Nat.min i (length index - 1)) positions).
  (** 66-88 *)
  Definition find_indices (x y : list A) : res (list Z) :=
    res_bind (argsort x) (λ index,
    res_bind (gather x index) (λ sorted_x,
    let sorted_index := map (searchsorted sorted_x) y in
    res_bind (take_clip index sorted_index) (λ yindex,
    res_map (λ xs, zip_with (λ (p : nat * A) v, if eqb p.2 v then Z.of_nat p.1 else -1) (zip yindex xs) y)
            (gather x yindex)))).
  (** 91-103 for one further array *)
  Definition merge_indices (x1 arg : list Z) : res (list Z) :=
    np_where (λ _ _ v, v) (map (λ z, z =? -1) x1) arg x1.

  (** [np.compress(mask, data)] *)
  Definition np_compress {X} (mask : list bool) (data : list X) : res (list X) :=
    if existsb id (drop (length data) mask) then Err IndexError else Ok (pick_bits true mask data).

  (** 39-49 *)
  Fixpoint match_indices (t other : tbl) (criteria : list (string * string * string)) (indices : list Z) : res (list Z) :=
    match criteria with
    | [] => Ok indices
    | (b, op, a) :: criteria =>
        if decide (op ≠ "=="%string) then Err ValueError else
        match dget t b, dget other a with
        | Some cb, Some ca =>
            res_bind (col_getslice ca (Slice None None None)) (λ x,
            res_bind (col_getslice cb (Slice None None None)) (λ y,
            res_bind (find_indices x y) (λ index_update,
            res_bind (merge_indices indices index_update) (match_indices t other criteria))))
        | _, _ => Err ValueError
        end
    end.
  (** 53-55 *)
  Fixpoint add_left (cols : tbl) (keep : list string) (mask : list bool) (new : tbl) : res tbl :=
    match cols with
    | [] => Ok new
    | (name, c) :: cols =>
        if decide (name ∈ keep) then
          res_bind (col_getslice c (Slice None None None)) (λ data,
          res_bind (np_compress mask data) (λ vs, add_left cols keep mask (tbl_set ty ps new name vs)))
        else add_left cols keep mask new
    end.
  (** 57-61 *)
  Fixpoint add_right (cols : tbl) (keep : list string) (primary : list Z) (new : tbl) : res tbl :=
    match cols with
    | [] => Ok new
    | (name, c) :: cols =>
        if decide (name ∈ keep) then
          res_bind (col_getslice c (Slice None None None)) (λ data,
          res_bind (gather data (map Z.to_nat primary)) (λ vs,
          res_bind (add_unique ty ps new name vs) (add_right cols keep primary)))
        else add_right cols keep primary new
    end.
  (** 6-63 *)
  Definition match_ (t other : tbl) (criteria : list (string * string * string)) (keep_left keep_right : option (list string)) : res tbl :=
    let kl := default t.*1 keep_left in
    let kr := default other.*1 keep_right in
    if negb (forallb (λ n, bool_decide (n ∈ t.*1)) kl) then Err ValueError else
    if negb (forallb (λ n, bool_decide (n ∈ other.*1)) kr) then Err ValueError else
    res_bind (match_indices t other criteria (replicate (Z.to_nat (tbl_len t)) (-1))) (λ indices,
    let mask := map (λ z, negb (z =? -1)) indices in
    res_bind (add_left t kl mask []) (λ new,
    res_bind (np_compress mask indices) (λ primary, add_right other kr primary new))).
End Match.
