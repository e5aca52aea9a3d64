(** What filtering by an expression means, stated without the code. *)
From Coq Require Import Ascii String.
From stdpp Require Import strings.
From Verif.Spec Require Import Base.
From Verif.Spec Require Export Rows Filter.
Local Open Scope string_scope.

(** The text [x] is a part of the text [e] *)
Definition part_of (x e : string) : Prop := ∃ a b, e = a +:+ x +:+ b.

(** The names of row [i] of a table with their values: names that are no columns have none *)
Definition row_values {A} (none : A) (v : view (N := string) (A := A)) (i : nat) (x : string) : option A :=
  if decide (x ∈ names v) then Some (field none v x i) else None.

(** The value of a text depends only on the values of names that are parts of it *)
Definition reads_its_names {A} (value : string → (string → option A) → res bool) (e : string) : Prop :=
  ∀ env env', (∀ x, part_of x e → env x = env' x) → value e env = value e env'.

(** What a name in Python looks like; bytes from 128 on are taken for letters. *)
Definition alphabet : string := "abcdefghijklmnopqrstuvwxyzABCDEFGHIJKLMNOPQRSTUVWXYZ_".
Definition digits : string := "0123456789".
Definition reserved : list string :=
  ["and"; "or"; "not"; "is"; "in"; "if"; "elif"; "else"; "for"; "while"; "break"; "continue"; "return"; "yield"; "pass"; "def"; "lambda";
   "class"; "del"; "global"; "nonlocal"; "import"; "from"; "as"; "try"; "except"; "finally"; "raise"; "assert"; "with"; "async"; "await";
   "None"; "True"; "False"; "__debug__"]%list.
Definition starts_name (c : ascii) : Prop := part_of (String c "") alphabet ∨ (128 <= nat_of_ascii c)%nat.
Definition python_name (s : string) : Prop :=
  (∃ c t, s = String c t ∧ starts_name c ∧ ∀ a d b, t = a +:+ String d b → starts_name d ∨ part_of (String d "") digits) ∧
  s ∉ reserved.
