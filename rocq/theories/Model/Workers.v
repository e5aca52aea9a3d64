(** The number of workers for the tasks of an import (tablite/nimlite.py 118-166), a column selection (nimlite.py 260-303) and
    a join (tablite/joins.py 135-150, 423-425, 468-513, 524-552).

    [counted] is what psutil counts, None if it does not know.  The memory that is free is an int below 2^53, so that
    [free // 300e6] is the quotient. *)
From stdpp Require Import strings.
From Verif.Spec Require Export Base Workers.
From Verif.Model Require Export Reindex JoinMerge.
Local Open Scope Z_scope.

(** nimlite.py 121, 273, mp_utils.py 64: [max(psutil.cpu_count(), 1)] *)
Definition cpus_of (counted : option Z) : res Z :=
  match counted with None => Err TypeError | Some c => Ok (Z.max c 1) end.

(** config.py 63 *)
Definition config_vpus (counted : Z) : Z := Z.max (counted - 1) 1.

(** nimlite.py 148-166: [Some w] if a pool of [w] workers is started *)
Definition import_workers (mode : mp_mode) (counted : option Z) (tasks : Z) : res (option Z) :=
  res_map (λ cpus,
    let is_sp := match mode with ModeFalse => true | ModeForce => false | ModeAuto => (cpus <=? 1) || (tasks <=? 1) end in
    if is_sp then None else Some cpus) (cpus_of counted).

(** nimlite.py 273-303; one task for each page *)
Definition select_workers (mode : mp_mode) (counted : option Z) (page_count : Z) : res (option Z) :=
  res_map (λ cpu_count,
    let is_mp := match mode with ModeForce => true | ModeFalse => false | ModeAuto => (1 <? cpu_count) && (1 <? page_count) end in
    if is_mp then Some (Z.min cpu_count page_count) else None) (cpus_of counted).

Section join.
  Context (mode : mp_mode) (limit vpus : Z) (counted : option Z) (free ps : Z).

  (** joins.py 474-509: column and range of each task, for the left columns first *)
  Definition join_tasks (n : Z) (columns : list string) : list (string * (Z * Z)) :=
    concat (map (λ c, map (λ start, (c, (start, Z.min (start + ps) n))) (py_range 0 (n + 1) ps)) columns).

  (** joins.py 135-150 [_vpus] *)
  Definition vpus_for {B} (tasks : list B) : res Z :=
    match mode with
    | ModeFalse => Err TypeError
    | _ => Ok (Z.min (Z.min vpus (zlen tasks)) (free / 300000000))
    end.

  (** mp_utils.py 46-67, where psutil may not know *)
  Definition uses_mp (fields : Z) : res bool :=
    match mode, counted with
    | ModeAuto, None => if fields <? limit then Ok false else Err TypeError
    | _, _ => Ok (is_mp mode limit (default 1 counted) fields)
    end.

  (** joins.py 423-425 and 510-514, 549-552 *)
  Definition join_workers {B} (fields : Z) (tasks : list B) : res (option Z) :=
    res_bind (uses_mp fields) (λ use_mp, if use_mp then res_map Some (vpus_for tasks) else Ok None).
End join.
