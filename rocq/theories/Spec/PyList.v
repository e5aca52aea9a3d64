(** The reference semantics of Python's built-in [range], [slice] and list
    indexing (CPython: PySlice_AdjustIndices, list_subscript,
    list_ass_subscript).  This file knows nothing of tablite. *)
From Verif.Spec Require Export Base.
Local Open Scope Z_scope.

(** [len(l)] as a Python int. *)
Notation zlen l := (Z.of_nat (length l)).

(** [l[i]] for a non-negative position; [None] outside [0, len). *)
Definition znth {A} (l : list A) (i : Z) : option A :=
  if i <? 0 then None else l !! Z.to_nat i.

(** [list(range(start, stop, step))] for step <> 0. *)
Definition range_count (start stop step : Z) : Z :=
  if 0 <? step then (stop - start + step - 1) / step
  else (start - stop - step - 1) / (- step).

Definition py_range (start stop step : Z) : list Z :=
  map (λ k, start + step * k) (seqZ 0 (range_count start stop step)).

(** Python's [slice(start, stop, step)]; [None] is Python's [None]. *)
Record pyslice := Slice {
  sl_start : option Z;
  sl_stop : option Z;
  sl_step : option Z
}.

Definition sl_stepv (s : pyslice) : Z := default 1 (sl_step s).

(** [slice.indices(len)], for a non-zero step. *)
Definition slice_indices (s : pyslice) (len : Z) : Z * Z * Z :=
  let step := sl_stepv s in
  let lower := if step <? 0 then -1 else 0 in
  let upper := if step <? 0 then len - 1 else len in
  let clip x := if x <? 0 then Z.max (x + len) lower else Z.min x upper in
  let start := match sl_start s with
               | None => if step <? 0 then upper else lower
               | Some x => clip x
               end in
  let stop := match sl_stop s with
              | None => if step <? 0 then lower else upper
              | Some x => clip x
              end in
  (start, stop, step).

(** The positions addressed by [l[s]], in order. *)
Definition slice_positions {A} (l : list A) (s : pyslice) : list Z :=
  let '(start, stop, step) := slice_indices s (zlen l) in
  py_range start stop step.

(** [l[s]] *)
Definition py_getslice {A} (l : list A) (s : pyslice) : list A :=
  omap (znth l) (slice_positions l s).

(** [l[i]] *)
Definition py_getitem {A} (l : list A) (i : Z) : res A :=
  match znth l (if i <? 0 then i + zlen l else i) with
  | Some a => Ok a
  | None => Err IndexError
  end.

(** [l[i] = v] *)
Definition py_setitem {A} (l : list A) (i : Z) (v : A) : res (list A) :=
  let k := if i <? 0 then i + zlen l else i in
  if bool_decide (0 <= k < zlen l) then Ok (<[Z.to_nat k := v]> l) else Err IndexError.

(** [del l[i]] *)
Definition py_delitem {A} (l : list A) (i : Z) : res (list A) :=
  let k := if i <? 0 then i + zlen l else i in
  if bool_decide (0 <= k < zlen l)
  then Ok (take (Z.to_nat k) l ++ drop (S (Z.to_nat k)) l) else Err IndexError.

(** [l[a:b] = vs], step missing or 1 *)
Definition py_setslice {A} (l : list A) (s : pyslice) (vs : list A) : list A :=
  let '(start, stop, _) := slice_indices s (zlen l) in
  take (Z.to_nat start) l ++ vs ++ drop (Z.to_nat (Z.max start stop)) l.

(** Writing a list of (position, value) pairs. *)
Definition write_all {A} (l : list A) (ps : list (Z * A)) : list A :=
  fold_left (λ acc p, <[Z.to_nat p.1 := p.2]> acc) ps l.

(** [l[a:b:k] = vs] for k not in (None, 1) *)
Definition py_setslice_ext {A} (l : list A) (s : pyslice) (vs : list A) : res (list A) :=
  let pos := slice_positions l s in
  if decide (length vs = length pos) then Ok (write_all l (zip pos vs)) else Err ValueError.

(** Keep the elements whose position (counted from [off]) satisfies [P]. *)
Fixpoint filter_pos {A} (P : Z → bool) (off : Z) (l : list A) : list A :=
  match l with
  | [] => []
  | x :: l => if P off then x :: filter_pos P (off + 1) l else filter_pos P (off + 1) l
  end.

(** [del l[a:b:k]] *)
Definition py_delslice {A} (l : list A) (s : pyslice) : list A :=
  filter_pos (λ i, bool_decide (i ∉ slice_positions l s)) 0 l.

(** Tests of this file against CPython (values obtained by hand). *)
Example range_test : py_range 9 (-1) (-3) = [9; 6; 3; 0]. Proof. reflexivity. Qed.
Example getslice_test :
  py_getslice [10; 11; 12; 13; 14] (Slice (Some (-4)) (Some 100) (Some 2)) = [11; 13].
Proof. reflexivity. Qed.
Example getslice_rev_test :
  py_getslice [10; 11; 12; 13; 14] (Slice None None (Some (-2))) = [14; 12; 10].
Proof. reflexivity. Qed.
Example setslice_test :
  py_setslice [0; 1; 2; 3] (Slice (Some 3) (Some 1) None) [7; 8] = [0; 1; 2; 7; 8; 3].
Proof. reflexivity. Qed.
Example delslice_test :
  py_delslice [0; 1; 2; 3; 4] (Slice (Some 4) (Some 0) (Some (-2))) = [0; 1; 3].
Proof. reflexivity. Qed.
Example setslice_ext_test :
  py_setslice_ext [0; 1; 2; 3; 4] (Slice None None (Some (-2))) [7; 8; 9] = Ok [9; 1; 8; 3; 7].
Proof. reflexivity. Qed.
