(** C112: the entries given to column_select are read as documented and reach the tasks.

    Full claim: of each entry the column, the new name (stripped; none if it is no text or empty), the type (any case of letters) and
    whether empty values are allowed are read, entries that are not of this form are refused, and every task gets, in order, one
    wish per entry.

    The full claim is false if a numbered name is that of another entry (C112_lost_refuted, cf. C57). *)
From Coq Require Import Ascii String.
From Verif.Spec Require Import Base TaskSettings SelectRequests.
From Verif.Model Require Import Dict ColumnSelect EncFile SelectRequests.
From Verif.Proof Require Import SelectRequestsProofs.
Local Open Scope string_scope.
Local Open Scope list_scope.

Theorem C112_entry : ∀ strip truth c r,
  read_entry strip truth c = Ok r ↔
  dget c "column" = Some (JText (r_column r)) ∧ asks_name strip (dget c "rename") (r_rename r) ∧
  asks_type (dget c "type") (r_type r) ∧
  match default (JBool false) (dget c "allow_empty") with JBool b => r_allow r = b | v => truth v = Ok (r_allow r) end.
Proof. exact read_entry_ok. Qed.
Print Assumptions C112_entry.

(** [told_apart] (C57): the names, repeated ones with a number *)
Theorem C112_asked_partial : ∀ strip truth cols rs,
  Forall2 (λ c r, read_entry strip truth c = Ok r) cols rs → NoDup (told_apart [] (map given rs)) →
  task_infos strip truth cols =
  Ok (zip_with (λ n r, (n, Desired n (r_column r) (default K_NONETYPE (r_type r)) (r_allow r))) (told_apart [] (map given rs)) rs).
Proof. exact task_asked. Qed.
Print Assumptions C112_asked_partial.

(** ** Nothing is lost or changed between the entries and the tasks, whatever the names are. *)
Theorem C112_tasks : ∀ strip truth cols, task_infos strip truth cols = desiredColumnMap strip truth cols.
Proof. exact task_gets. Qed.
Print Assumptions C112_tasks.

Theorem C112_blank : ∀ strip truth c n s,
  dget c "column" = Some (JText n) → dget c "rename" = Some (JText s) → s ≠ "" → strip s = "" →
  read_entry strip truth c = Err ValueError.
Proof. exact blank_name. Qed.
Print Assumptions C112_blank.

Theorem C112_unknown_type : ∀ strip truth c n s,
  dget c "column" = Some (JText n) → dget c "rename" = None → dget c "type" = Some (JText s) →
  (∀ name k, (name, k) ∈ type_names → ¬ spelled name s) → read_entry strip truth c = Err OtherError.
Proof. exact unknown_type. Qed.
Print Assumptions C112_unknown_type.

(** ** The names of types in the reasons are those that can be asked for. *)
Theorem C112_reasons : ∀ k, k ≠ K_NONETYPE → toPageType (getTypeUserName k) = Ok k.
Proof. exact user_names. Qed.
Print Assumptions C112_reasons.

Definition no_strip (s : string) : string := if decide (s = " z ") then "z" else if decide (s = "  ") then "" else s.
Definition no_truth (v : jvalue) : res bool := Err TypeError.

(** Column "a" as a number named "z", column "b" as it is and once more, where empty texts are allowed *)
Example three_entries :
  task_infos no_strip no_truth
    [[("column", JText "a"); ("type", JText "Int"); ("rename", JText " z ")];
     [("column", JText "b"); ("type", JText "str"); ("rename", JNone)];
     [("column", JText "b"); ("type", JText "str"); ("allow_empty", JBool true)]] =
  Ok [("z", Desired "z" "a" K_INT false); ("b", Desired "b" "b" K_STRING false); ("b_1", Desired "b_1" "b" K_STRING true)].
Proof. vm_compute. reflexivity. Qed.

Example refused_entries :
  read_entry no_strip no_truth [("column", JText "a"); ("rename", JText "  ")] = Err ValueError ∧
  read_entry no_strip no_truth [("column", JText "a"); ("type", JText "integer")] = Err OtherError ∧
  read_entry no_strip no_truth [("type", JText "int")] = Err KeyError.
Proof. vm_compute. done. Qed.

Theorem C112_lost_refuted :
  ¬ ∀ cols m, task_infos no_strip no_truth cols = Ok m → length m = length cols.
Proof.
  intros H. specialize (H [[("column", JText "a_1")]; [("column", JText "a")]; [("column", JText "a")]] _ eq_refl).
  vm_compute in H. discriminate.
Qed.
Print Assumptions C112_lost_refuted.
