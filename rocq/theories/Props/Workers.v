(** C114: pools of workers fit their tasks.

    Full claim: whenever an import, a column selection or a join starts a pool of workers, it has at least one worker; a selection
    or a join starts no more workers than it has tasks; a join none that the free memory does not suffice for; none starts any in
    the mode for one process.  The tasks of a join hold every row of every column once.

    The full claim is false: a join with less than 300 MB of free memory (C114_memory) and a selection from a table without pages in
    the mode for many processes (C114_no_pages_refuted) start pools without workers. *)
From stdpp Require Import strings.
From Verif.Model Require Import Workers.
From Verif.Proof Require Import WorkersProofs.
Local Open Scope Z_scope.

Theorem C114_import : ∀ mode counted tasks w, import_workers mode counted tasks = Ok (Some w) →
  1 <= w ∧ (∃ c, counted = Some c ∧ (w = c ∨ c < 1 ∧ w = 1)) ∧ mode ≠ ModeFalse ∧ (mode = ModeAuto → 2 <= w ∧ 2 <= tasks).
Proof. exact import_fit. Qed.
Print Assumptions C114_import.
Example C114_import_example : import_workers ModeAuto (Some 8) 3 = Ok (Some 8) ∧ import_workers ModeForce (Some 0) 1 = Ok (Some 1).
Proof. done. Qed.

(** Missing: tables without pages. *)
Theorem C114_select_partial : ∀ mode counted pages w, select_workers mode counted pages = Ok (Some w) → 1 <= pages →
  fit w pages ∧ (∃ c, counted = Some c ∧ w <= Z.max c 1) ∧ mode ≠ ModeFalse ∧ (mode = ModeAuto → 2 <= w).
Proof. exact select_fit. Qed.
Print Assumptions C114_select_partial.
Example C114_select_example : select_workers ModeAuto (Some 8) 3 = Ok (Some 3) ∧ select_workers ModeAuto (Some 8) 1 = Ok None.
Proof. done. Qed.

Theorem C114_no_pages_refuted : ¬ ∀ mode counted pages w, select_workers mode counted pages = Ok (Some w) → 0 <= pages → 1 <= w.
Proof. intros H. specialize (H ModeForce (Some 8) 0 0 eq_refl). lia. Qed.
Print Assumptions C114_no_pages_refuted.

(** Missing: less free memory than one worker may need. *)
Theorem C114_join_partial : ∀ mode limit vpus counted free fields ps n columns w,
  0 < ps → 0 <= n → columns ≠ [] → 1 <= vpus → memory_of_worker <= free →
  join_workers mode limit vpus counted free fields (join_tasks ps n columns) = Ok (Some w) →
  fit w (zlen (join_tasks ps n columns)) ∧ w <= vpus ∧ w * memory_of_worker <= free ∧ mode ≠ ModeFalse.
Proof. exact join_fit. Qed.
Print Assumptions C114_join_partial.
Example C114_join_example :
  join_workers ModeForce 1000000 7 (Some 4) 1000000000 10 (join_tasks 2 4 ["a"; "b"]) = Ok (Some 3) ∧
  join_tasks 2 4 ["a"; "b"] =
    [("a", (0, 2)); ("a", (2, 4)); ("a", (4, 4)); ("b", (0, 2)); ("b", (2, 4)); ("b", (4, 4))].
Proof. split; by vm_compute. Qed.

(** With the number of workers that the configuration starts with, one processor is left to others, if there are several. *)
Theorem C114_default_partial : ∀ mode limit cpus counted free fields ps n columns w,
  0 < ps → 0 <= n → columns ≠ [] → memory_of_worker <= free →
  join_workers mode limit (config_vpus cpus) counted free fields (join_tasks ps n columns) = Ok (Some w) →
  fit w (zlen (join_tasks ps n columns)) ∧ (w < cpus ∨ w = 1).
Proof. exact join_default. Qed.
Print Assumptions C114_default_partial.

Theorem C114_memory : ∀ mode limit vpus counted free fields (B : Type) (tasks : list B) w,
  0 <= free < memory_of_worker → 0 <= vpus →
  join_workers mode limit vpus counted free fields tasks = Ok (Some w) → w = 0.
Proof. exact join_memory. Qed.
Print Assumptions C114_memory.
Example C114_memory_example : join_workers ModeForce 1000000 7 (Some 4) 299999999 10 (join_tasks 2 4 ["a"]) = Ok (Some 0).
Proof. by vm_compute. Qed.

(** ** The check of the mode in [_vpus] never fails in a join: only if psutil does not know the number of processors is there an error. *)
Theorem C114_mode : ∀ mode limit vpus counted free fields (B : Type) (tasks : list B) c,
  counted = Some c → ∃ w, join_workers mode limit vpus counted free fields tasks = Ok w.
Proof. exact join_mode. Qed.
Print Assumptions C114_mode.

(** ** The tasks of a join *)
Theorem C114_rows : ∀ ps n columns c, 0 < ps → 0 <= n → NoDup columns → c ∈ columns →
  hold_all (map snd (filter (λ t, t.1 = c) (join_tasks ps n columns))) n.
Proof. exact join_tasks_cover. Qed.
Print Assumptions C114_rows.

Theorem C114_count : ∀ ps n columns, 0 < ps → 0 <= n → zlen (join_tasks ps n columns) = zlen columns * (n / ps + 1).
Proof. exact join_tasks_count. Qed.
Print Assumptions C114_count.

(** ** Where keys are merged there is a task for every key, also if there are no rows. *)
Theorem C114_merge : ∀ {A T} ps (t : table string A T) n left_keys right_keys,
  0 < ps → 0 <= n → length left_keys = length right_keys →
  (length left_keys <= length (where_tasks ps t n left_keys right_keys))%nat.
Proof. exact @where_tasks_count. Qed.
Print Assumptions C114_merge.
