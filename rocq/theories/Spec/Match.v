(** Rows of one table matched with rows of another.  This file knows nothing of tablite. *)
From Verif.Spec Require Export Rows.

Section match_spec.
  Context {A : Type} (ltb eqb : A → A → bool).

  (** The values satisfying [P] are ordered by [ltb] up to ties, and [==] is the tie, except for
      values (NaN) that are not equal to themselves. *)
  Definition ordered (P : A → Prop) : Prop :=
    (∀ x y z, P x → P y → P z → ltb x y = true → ltb y z = true → ltb x z = true) ∧
    (∀ x y z, P x → P y → P z → ltb x y = false → ltb y x = false → ltb y z = false → ltb z y = false →
      ltb x z = false ∧ ltb z x = false) ∧
    (∀ x y, P x → P y → eqb x y = true ↔ ltb x y = false ∧ ltb y x = false ∧ eqb y y = true).

  (** [p] lists the positions of [x] in ascending order of their values; ties in any order *)
  Definition sorts (x : list A) (p : list nat) : Prop :=
    Permutation p (seq 0 (length x)) ∧
    ∀ i j a b, (i < j)%nat → (p !! i ≫= (x !!.)) = Some a → (p !! j ≫= (x !!.)) = Some b → ltb b a = false.

  (** A criterion is a column of the left table and one of the right table: rows [i] and [j] agree *)
  Definition agree (c : list A * list A) (i j : nat) : Prop :=
    ∃ a b, c.1 !! i = Some a ∧ c.2 !! j = Some b ∧ eqb b a = true.
  (** row [i] agrees with row [j] by the first criterion by which it agrees with any row *)
  Definition matched (cs : list (list A * list A)) (i j : nat) : Prop :=
    ∃ k c, cs !! k = Some c ∧ agree c i j ∧ ∀ k' c' j', (k' < k)%nat → cs !! k' = Some c' → ¬ agree c' i j'.
  Definition unmatched (cs : list (list A * list A)) (i : nat) : Prop := ∀ c j, c ∈ cs → ¬ agree c i j.
  (** [js]: for every left row the right row, if there is one *)
  Definition matching (cs : list (list A * list A)) (n : nat) (js : list (option nat)) : Prop :=
    length js = n ∧ ∀ i j, js !! i = Some j → match j with Some j => matched cs i j | None => unmatched cs i end.
End match_spec.

(** The values of the rows that have a partner, and those of the partners *)
Definition kept {A} (js : list (option nat)) (l : list A) : list A :=
  (filter (λ p, is_Some p.1) (zip js l)).*2.
Definition partners {A} (none : A) (js : list (option nat)) (l : list A) : list A :=
  map (λ j, default none (l !! j)) (omap id js).

(** the columns with the given names *)
Definition only {N A} `{EqDecision N} (keep : list N) (v : list (N * list A)) : list (N * list A) := filter (λ c, c.1 ∈ keep) v.

Example kept_test : kept [Some 4; None; Some 2] [7; 8; 9] = [7; 9].
Proof. vm_compute. done. Qed.
