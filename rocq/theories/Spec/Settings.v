(** Settings that can be reset, stated without the code. *)
From Coq Require Import String.
From stdpp Require Import strings.
From Verif.Spec Require Export Base.

(** A setting holds a value or a list of values *)
Inductive setting (A : Type) := One (a : A) | Items (l : list A).
Global Arguments One {A}. Global Arguments Items {A}.

(** What programs do to settings: [Config.k = v], [del Config.k], [Config.k.append(x)] and [Config.reset()] *)
Inductive setting_op (A : Type) := Assign (k : string) (v : setting A) | Remove (k : string) | Append (k : string) (x : A) | Reset.
Global Arguments Assign {A}. Global Arguments Remove {A}. Global Arguments Append {A}. Global Arguments Reset {A}.

(** What was appended to the list that setting [k] held at first; [there]: the setting holds this list now *)
Fixpoint appended {A} (k : string) (there : bool) (ops : list (setting_op A)) : list A :=
  match ops with
  | [] => []
  | Assign k' _ :: ops => appended k (there && negb (bool_decide (k' = k))) ops
  | Remove k' :: ops => appended k (there && negb (bool_decide (k' = k))) ops
  | Append k' x :: ops => (if there && bool_decide (k' = k) then [x] else []) ++ appended k there ops
  | Reset :: ops => appended k true ops
  end.

(** Texts of environment variables that mean yes *)
Definition yes_texts : list string := ["1"; "t"; "true"; "y"; "yes"]%string.
(** The character [b] is [a] or the small letter of the capital [a] *)
Definition small_of (a b : Ascii.ascii) : Prop :=
  (b = a ∧ ¬ (65 ≤ Ascii.nat_of_ascii a ≤ 90)%nat) ∨
  ((65 ≤ Ascii.nat_of_ascii a ≤ 90)%nat ∧ Ascii.nat_of_ascii b = (Ascii.nat_of_ascii a + 32)%nat).
Definition means_yes (text : string) : Prop :=
  ∃ y, y ∈ yes_texts ∧ Forall2 small_of (list_ascii_of_string text) (list_ascii_of_string y).
