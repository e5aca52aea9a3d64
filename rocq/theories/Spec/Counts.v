(** Counting and substituting, independent of tablite. *)
From Verif.Spec Require Export Base PyList.
Local Open Scope Z_scope.

(** How many elements of [l] satisfy [P]. *)
Definition count_if {A} (P : A → Prop) `{∀ x, Decision (P x)} (l : list A) : Z :=
  zlen (filter P l).

(** The dictionary [d] (a list of its items) reports exactly the number of
    occurrences of each key among [ks]: an item for every key that occurs, none
    for any other and no item twice. *)
Definition counts_exactly {K} `{EqDecision K} (d : list (K * Z)) (ks : list K) : Prop :=
  NoDup d ∧ ∀ k n, (k, n) ∈ d ↔ 0 < n ∧ n = count_if (λ k', k' = k) ks.

(** The image of [x] under the first pair of [m] whose key equals [x], else [x]. *)
Definition subst_value {A} (eqb : A → A → bool) (m : list (A * A)) (x : A) : A :=
  match List.find (λ kv, eqb x kv.1) m with
  | Some kv => kv.2
  | None => x
  end.

Example counts_test : counts_exactly [(7, 2); (5, 1)] [7; 5; 7].
Proof.
  split; [repeat constructor; set_solver|]. intros k n. unfold count_if.
  rewrite !elem_of_cons, elem_of_nil.
  rewrite !filter_cons, filter_nil.
  repeat case_decide; simpl; subst; naive_solver lia.
Qed.

(** The ascending list of the positions of the elements satisfying [P]. *)
Definition positions {A} (P : A → Prop) `{∀ x, Decision (P x)} (l : list A) : list Z :=
  (filter (λ q, P q.2) (zip (seqZ 0 (zlen l)) l)).*1.

Example positions_test : positions (λ x, x = 7) [7; 5; 7; 7] = [0; 2; 3].
Proof. reflexivity. Qed.

(** The dictionary [d] maps every key that occurs in [ks] to the list of all its
    positions and has no other keys. *)
Definition indexes_exactly {K} `{EqDecision K} (d : list (K * list Z)) (ks : list K) : Prop :=
  NoDup d ∧ ∀ k ixs, (k, ixs) ∈ d ↔ ixs ≠ [] ∧ ixs = positions (λ k', k' = k) ks.
