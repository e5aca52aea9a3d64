(** C108: [reindex] of sortation.py, rows picked by position after a check of the positions, and the choice between one process and
    several.

    Full claim: row [k] of the result is the row at position [index[k]], positions counting from the end if negative as the check
    permits (sortation.py 91-94); positions outside are refused with IndexError; an empty index gives a table without rows; the
    result does not depend on the configuration. *)
From Coq Require Import String.
From Verif.Spec Require Import Join.
From Verif.Model Require Import Reindex.
From Verif.Proof Require Import LookupProofs ReindexProofs.
Local Open Scope list_scope.
Local Open Scope Z_scope.

(** ** Positions from the start.  Columns of different lengths are left out: see C36. *)
Theorem C108_rows_partial :
  ∀ {A T} `{EqDecision T} (ty : A → T) (none : A) (ps : Z) mode limit cpus (t : table string A T) (index : list Z),
  0 < ps → NoDup t.*1 → rect (nrows (contents t)) (contents t) → index ≠ [] →
  Forall (λ i, 0 <= i < Z.of_nat (nrows (contents t))) index →
  ∃ r, checked_reindex ty none ps mode limit cpus t index = Ok r ∧ names (contents r) = names (contents t) ∧
    rows none (contents r) = map (λ i, row none (contents t) (Z.to_nat i)) index.
Proof. intros * H1 H2 _. by apply rows_in_range. Qed.
Print Assumptions C108_rows_partial.

(** ** Positions outside *)
Theorem C108_range :
  ∀ {A T} `{EqDecision T} (ty : A → T) (none : A) (ps : Z) mode limit cpus (t : table string A T) (index : list Z),
  (∃ i, i ∈ index ∧ (i < - Z.of_nat (nrows (contents t)) ∨ Z.of_nat (nrows (contents t)) <= i)) →
  checked_reindex ty none ps mode limit cpus t index = Err IndexError.
Proof. intros. by apply range_checked. Qed.
Print Assumptions C108_range.

(** ** The configuration *)
Theorem C108_mode :
  ∀ {A T} `{EqDecision T} (ty : A → T) (none : A) (ps : Z) mode limit cpus mode' limit' cpus' (t : table string A T) (index : list Z),
  checked_reindex ty none ps mode limit cpus t index = checked_reindex ty none ps mode' limit' cpus' t index.
Proof. intros. by apply mode_free. Qed.
Print Assumptions C108_mode.

Theorem C108_is_mp : ∀ mode limit cpus fields,
  is_mp mode limit cpus fields = true ↔ mode = ModeForce ∨ (mode = ModeAuto ∧ limit <= fields ∧ 2 <= cpus).
Proof. exact mp_chosen. Qed.
Print Assumptions C108_is_mp.

Example C108_example :
  let t := otable [("a", [Some 1; Some 2; Some 3]); ("b", [None; Some 5; Some 6])]%string in
  rect (nrows (contents t)) (contents t) ∧
  (∃ r, checked_reindex (λ _, tt) None 2 ModeAuto 5 4 t [2; 0; 0] = Ok r ∧
    rows None (contents r) = [[Some 3; Some 6]; [Some 1; None]; [Some 1; None]]) ∧
  is_mp ModeAuto 5 4 6 = true ∧ is_mp ModeAuto 7 4 6 = false ∧
  checked_reindex (λ _, tt) None 2 ModeAuto 5 4 t [0; 3] = Err IndexError ∧
  checked_reindex (λ _, tt) None 2 ModeAuto 5 4 t [-4; 0] = Err IndexError.
Proof. split; [repeat constructor|]. split; [eexists; split; by vm_compute|by vm_compute]. Qed.

(** ** Negative positions pass the check, but give rows of None; without the check so do positions beyond the end. *)
Theorem C108_negative_refuted :
  let t := otable [("a", [Some 1; Some 2; Some 3])]%string in
  (∃ r, checked_reindex (λ _, tt) None 4 ModeAuto 5 4 t [-2; -3] = Ok r ∧ rows None (contents r) = [[None]; [None]]) ∧
  (∃ r, checked_reindex (λ _, tt) None 4 ModeAuto 5 4 t [-1; 0] = Ok r ∧ rows None (contents r) = [[None]; [Some 1]]) ∧
  (∃ r, table_reindex (λ _, tt) None 4 t [7; -9] = Ok r ∧ rows None (contents r) = [[None]; [None]]).
Proof. repeat split; eexists; split; by vm_compute. Qed.
Print Assumptions C108_negative_refuted.

(** ** An empty index is refused, by the check only. *)
Theorem C108_empty_refuted :
  let t := otable [("a", [Some 1; Some 2; Some 3])]%string in
  checked_reindex (λ _, tt) None 4 ModeAuto 5 4 t [] = Err ValueError ∧
  ∃ r, table_reindex (λ _, tt) None 4 t [] = Ok r ∧ contents r = [("a", [])]%string.
Proof. split; [by vm_compute|]. eexists. split; by vm_compute. Qed.
Print Assumptions C108_empty_refuted.

(** ** The first example of the documentation (sortation.py 78-80, core.py 381-383; letters as numbers) is wrong: the positions are
    0, 2, 4, 6 and the rows shown there are those at 1, 3, 5, 7. *)
Theorem C108_documentation_refuted :
  let t := otable [("c", map Some [1; 2; 3; 4; 5; 6; 7; 8])]%string in
  ∃ r, checked_reindex (λ _, tt) None 10 ModeAuto 5 4 t [0; 2; 4; 6] = Ok r ∧
    contents r = [("c", map Some [1; 3; 5; 7])]%string ∧ contents r ≠ [("c", map Some [2; 4; 6; 8])]%string.
Proof. eexists. split; [by vm_compute|]. split; [by vm_compute|discriminate]. Qed.
Print Assumptions C108_documentation_refuted.
