(** What a pool of workers and the tasks given to it should be like, stated without the code. *)
From stdpp Require Import list numbers list_numbers.
Local Open Scope Z_scope.

(** [w] workers for [tasks] tasks: some, and none of them idle *)
Definition fit (w tasks : Z) : Prop := 1 <= w <= tasks.

(** The ranges hold the rows 0 to [n - 1], each once and in order. *)
Definition hold_all (ranges : list (Z * Z)) (n : Z) : Prop :=
  concat (map (λ r, seqZ r.1 (r.2 - r.1)) ranges) = seqZ 0 n.

(** What one worker of a join may need in memory, in bytes *)
Definition memory_of_worker : Z := 300000000.
