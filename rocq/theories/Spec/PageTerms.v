(** Terms of the statements about the life of pages. *)
From stdpp Require Import strings.
From Verif.Model Require Import PageLife.

Section pages.
  Context {P : Type} `{EqDecision P} (pid : P → N) (cfg : P → list string).
  (** every [Attach] of [f] finds the file *)
  Fixpoint attach_found (f : path) (os : list (op P)) (s : state P) : Prop :=
    match os with
    | [] => True
    | o :: os =>
        match o with Attach _ g => g = f → f ∈ files s | _ => True end ∧
        match step pid cfg true o s with Some s' => attach_found f os s' | None => True end
    end.
  Definition one_owner (f : path) : Prop := ∀ p q, owns cfg p f = true → owns cfg q f = true → p = q.
End pages.

(** a process id is used again *)
Definition restarts {T : Type} (a : act T) : bool := match a with Restart _ => true | _ => false end.
