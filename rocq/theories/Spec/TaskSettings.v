(** What the tasks of a text import should be told, stated without the code. *)
From Coq Require Import Ascii String.
From Verif.Spec Require Import Base.
Local Open Scope N_scope.

(** The characters that a task can be told: tabulator, line feed and the printable
    characters of ASCII without the apostrophe. *)
Definition tellable (c : ascii) : Prop :=
  let n := N_of_ascii c in n = 9 ∨ n = 10 ∨ (32 ≤ n ∧ n ≤ 126 ∧ n ≠ 39).

(** A text of one character *)
Definition only_char (s : string) (c : ascii) : Prop := s = String c EmptyString.

(** Texts that differ at most in the case of letters of ASCII *)
Definition letter_case (a b : ascii) : Prop :=
  a = b ∨ (65 ≤ N_of_ascii b ∧ N_of_ascii b ≤ 90 ∧ N_of_ascii a = N_of_ascii b + 32).
Fixpoint spelled (s name : string) : Prop :=
  match s, name with
  | EmptyString, EmptyString => True
  | String a s, String b name => letter_case a b ∧ spelled s name
  | _, _ => False
  end.
