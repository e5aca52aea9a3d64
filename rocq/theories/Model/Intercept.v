(** tablite/utils.py: [intercept] (lines 86-167). *)
From Verif.Spec Require Export PyList.
Local Open Scope Z_scope.

(** A Python [range] object. *)
Record rng := Rng { r_start : Z; r_stop : Z; r_step : Z }.

(** [len(range)] *)
Definition rlen (r : rng) : Z := Z.max 0 (range_count (r_start r) (r_stop r) (r_step r)).

(** [list(range)] *)
Definition rlist (r : rng) : list Z := py_range (r_start r) (r_stop r) (r_step r).

(** [range(0)] *)
Definition rempty : rng := Rng 0 0 1.

(** [math.ceil(a / b)].  The code divides as floats; exact here (positions
    below 2^53). *)
Definition cdiv (a b : Z) : Z := - ((- a) / b).

(** utils.py 100-103: a range with negative step is turned into
    [range(stop + 1, start + 1, 1)]. *)
Definition straighten (r : rng) : rng :=
  if r_step r <? 1 then Rng (r_stop r + 1) (r_start r + 1) 1 else r.

(** utils.py 155-159 / 161-165: walk [range(from, end, small_step)], skip
    values below [low], return the first [n] with [(n - low) % big_step == 0]. *)
Definition first_common (from end_ small_step low big_step : Z) : option Z :=
  list_find (λ n, negb (n <? low) && ((n - low) mod big_step =? 0))
            (py_range from end_ small_step) ≫= λ p, Some p.2.

(** utils.py 86-167. *)
Definition intercept (A B : rng) : res rng :=
  let A := straighten A in
  let B := straighten B in
  if rlen A =? 0 then Ok rempty else
  if rlen B =? 0 then Ok rempty else
  if r_stop A <=? r_start B then Ok rempty else
  if r_stop B <=? r_start A then Ok rempty else
  (* lines 115-130 *)
  let '(start, end_) :=
    if r_start A <=? r_start B then
      if r_stop A <=? r_stop B then (r_start B, r_stop A) else (r_start B, r_stop B)
    else
      if r_stop A <=? r_stop B then (r_start A, r_stop A) else (r_start A, r_stop B) in
  (* lines 132-136 *)
  let a_start := cdiv (start - r_start A) (r_step A) * r_step A + r_start A in
  let b_start := cdiv (start - r_start B) (r_step B) * r_step B + r_start B in
  if (r_step A =? 1) || (r_step B =? 1) then                    (* 138-141 *)
    Ok (Rng (Z.max a_start b_start) end_ (Z.max (r_step A) (r_step B)))
  else if r_step A =? r_step B then                              (* 142-147 *)
    let a := Z.min (r_start A) (r_start B) in
    let b := Z.max (r_start A) (r_start B) in
    if negb ((b - a) mod r_step A =? 0) then Ok rempty
    else Err UnboundLocalError   (* [range(b, end, step)]: [step] is unassigned *)
  else                                                           (* 148-167 *)
    let step := if negb (Z.gcd (r_step A) (r_step B) =? 1)
                then Z.max (r_step A) (r_step B) else r_step A * r_step B in
    let found :=
      if r_step A <? r_step B then first_common a_start end_ (r_step A) b_start (r_step B)
      else first_common b_start end_ (r_step B) a_start (r_step A) in
    match found with
    | Some n => Ok (Rng n end_ step)
    | None => Ok rempty
    end.
