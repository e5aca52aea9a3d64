(** tablite/config.py [Config.page_steps] (lines 78-89). *)
From Verif.Spec Require Export PyList.
Local Open Scope Z_scope.

(** lines 85-89: one round per element of [range(0, length + 1, PAGE_SIZE)] *)
Fixpoint step_loop (rounds : nat) (ps len end_ : Z) : list (Z * Z) :=
  match rounds with
  | O => []
  | S rounds =>
      let start := end_ in
      let end_ := Z.min (end_ + ps) len in
      (start, end_) :: if end_ =? len then [] else step_loop rounds ps len end_
  end.

Definition page_steps (ps len : Z) : list (Z * Z) :=
  step_loop (length (py_range 0 (len + 1) ps)) ps len 0.
