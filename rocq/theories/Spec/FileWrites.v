(** Files and what an export does to them. *)
From Coq Require Import String.
From Verif.Spec Require Export Base.

(** The files of a directory: what is in each of them, if it is there *)
Definition files := string → option (list Z).

(** After the export the file holds [text] if nothing was raised, and what it held before if something was; other files are as
    they were *)
Definition all_or_nothing {A} (before : files) (p : string) (text : list Z) (outcome : files * res A) : Prop :=
  (match outcome.2 with Ok _ => outcome.1 p = Some text | Err _ => outcome.1 p = before p end) ∧
  ∀ q, q ≠ p → outcome.1 q = before q.
