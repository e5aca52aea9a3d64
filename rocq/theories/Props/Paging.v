(** C21: repaginating. *)
From Verif.Spec Require Import PyList Counts.
From Verif.Model Require Import Column Repaginate.
From Verif.Proof Require Import RepaginateProofs.
Local Open Scope Z_scope.

(** Whatever the page layout, if the call returns, values and order are kept, every page
    but the last has exactly [ps] values, the last has at least one, and the type
    counts are exact.  It returns unless a value has a type that the native code does
    not know (then it raises and the column is as before). *)
Theorem C21_repaginate {A T} `{EqDecision T} (ty : A → T) (kinds : list T) (ps : Z) (c : column A T) :
  0 < ps → NoDup kinds →
  (∀ c', repaginate ty kinds ps c = Ok c' →
     col_iter c' = col_iter c ∧
     Forall (λ p, 1 <= plen p <= ps) c' ∧
     (∀ c1 p q c2, c' = c1 ++ p :: q :: c2 → plen p = ps) ∧
     counts_exactly (col_types c') (map ty (col_iter c))) ∧
  ((∃ c', repaginate ty kinds ps c = Ok c') ↔ ∀ x, x ∈ col_iter c → ty x ∈ kinds).
Proof. exact (repaginate_spec ty kinds ps c). Qed.

Definition parity (x : Z) : bool := Z.even x.
Definition example_pages : column Z bool :=
  map (new_page parity) [[1; 2; 3; 4; 5]; []; [6]; [7; 8]; []].
Example C21_example :
  0 < 3 ∧ NoDup [true; false] ∧ (∀ x, x ∈ col_iter example_pages → parity x ∈ [true; false]) ∧
  repaginate parity [true; false] 3 example_pages
    = Ok [MkPage [1; 2; 3] [(true, 1); (false, 2)]; MkPage [4; 5; 6] [(true, 2); (false, 1)];
          MkPage [7; 8] [(true, 1); (false, 1)]].
Proof.
  split_and!; [done|repeat constructor; set_solver|intros x _; destruct (parity x); set_solver|done].
Qed.
Print Assumptions C21_repaginate.
