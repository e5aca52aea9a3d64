(** The most frequent type among values.  Knows nothing of tablite. *)
From Verif.Spec Require Export Counts.
Local Open Scope Z_scope.

(** [k] occurs among [ks], is not [none], and no other key than [none] occurs more often. *)
Definition most_frequent {K} `{EqDecision K} (none : K) (ks : list K) (k : K) : Prop :=
  k ∈ ks ∧ k ≠ none ∧ ∀ k', k' ≠ none → count_if (λ x, x = k') ks <= count_if (λ x, x = k) ks.

Example most_frequent_test : most_frequent 0 [0; 2; 0; 1; 2; 0] 2.
Proof.
  split; [set_solver|]. split; [done|]. intros k' H. unfold count_if. rewrite !filter_cons, !filter_nil.
  repeat case_decide; simpl; subst; lia.
Qed.
