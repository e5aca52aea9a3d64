(** Which rows a join has to produce.  This file knows nothing of tablite. *)
From stdpp Require Import strings pretty.
From Verif.Spec Require Export Counts Rows.
Local Open Scope Z_scope.

Section join.
  Context {K : Type} `{EqDecision K}.

  (** The distinct elements of [ks] in the order of their first occurrence. *)
  Fixpoint distinct (ks : list K) : list K :=
    match ks with
    | [] => []
    | k :: ks => k :: filter (λ k', k' ≠ k) (distinct ks)
    end.

  (** The ascending positions of [k] in [ks]. *)
  Definition occ (ks : list K) (k : K) : list Z := positions (λ k', k' = k) ks.

  (** All pairs of positions with equal keys: grouped by key, keys in the order of
      the left list, left positions before right ones. *)
  Definition inner_pairs (lk rk : list K) : list (option Z * option Z) :=
    concat (map (λ k, list_prod (map Some (occ lk k)) (map Some (occ rk k))) (distinct lk)).

  (** The same with one partner-less pair for every left position without partner. *)
  Definition left_pairs (lk rk : list K) : list (option Z * option Z) :=
    concat (map (λ k, list_prod (map Some (occ lk k))
                                (match occ rk k with [] => [None] | js => map Some js end))
                (distinct lk)).

  (** The keys that occur on the right only. *)
  Definition right_only (lk rk : list K) : list K := filter (λ k, k ∉ lk) (distinct rk).

  (** [pairs] is the left join followed by the right positions without partner, which are
      grouped by key, keys in any order. *)
  Definition outer_pairs (lk rk : list K) (pairs : list (option Z * option Z)) : Prop :=
    ∃ ks, ks ≡ₚ right_only lk rk ∧
      pairs = left_pairs lk rk ++ concat (map (λ k, map (λ j, (None, Some j)) (occ rk k)) ks).
End join.

Definition cross_pairs (n m : nat) : list (option Z * option Z) :=
  list_prod (map Some (seqZ 0 (Z.of_nat n))) (map Some (seqZ 0 (Z.of_nat m))).

Example inner_test :
  inner_pairs [7; 5; 7] [5; 7; 7] =
  [(Some 0, Some 1); (Some 0, Some 2); (Some 2, Some 1); (Some 2, Some 2); (Some 1, Some 0)].
Proof. reflexivity. Qed.
Example left_test : left_pairs [7; 5] [5; 5] = [(Some 0, None); (Some 1, Some 0); (Some 1, Some 1)].
Proof. reflexivity. Qed.

Section rows.
  Context {N A : Type} `{EqDecision N} (none : A).
  Implicit Types v w : view (N := N) (A := A).

  (** the value in row [i] under [n]; [none] when there is no row *)
  Definition ofield v (n : N) (i : option Z) : A :=
    match i with None => none | Some i => field none v n (Z.to_nat i) end.

  (** one row of a join: the columns [lcols] of the left, [rcols] of the right row *)
  Definition join_row v w (lcols rcols : list N) (p : option Z * option Z) : list A :=
    map (λ n, ofield v n p.1) lcols ++ map (λ n, ofield w n p.2) rcols.
End rows.

(** [given] are names for [wanted], one by one: each is free with respect to [taken]
    and the names given before; it is the wanted name if that is free and otherwise
    the first free one among wanted_1, wanted_2, ... *)
Fixpoint fresh_names (taken wanted given : list string) : Prop :=
  match wanted, given with
  | [], [] => True
  | w :: wanted, g :: given =>
      g ∉ taken ∧ (w ∉ taken → g = w) ∧
      (w ∈ taken → ∃ k : N, (1 <= k)%N ∧ g = (w +:+ "_" +:+ pretty k)%string ∧
         ∀ j : N, (1 <= j < k)%N → (w +:+ "_" +:+ pretty j)%string ∈ taken) ∧
      fresh_names (taken ++ [g]) wanted given
  | _, _ => False
  end.

(** [r] is the table that joins the rows [pairs] of [v] and [w]: the columns [lcols] of
    [v] under their names, the columns [rcols] of [w] under names that are free. *)
Definition joined {A} (none : A) (v w : view (N := string) (A := A)) (lcols rcols : list string)
    (pairs : list (option Z * option Z)) (r : view (N := string) (A := A)) : Prop :=
  ∃ given, names r = lcols ++ given ∧ NoDup (lcols ++ given) ∧ fresh_names lcols rcols given ∧
    rows none r = map (join_row none v w lcols rcols) pairs.

(** [o] is the position of the first element of [l] with [hold]; [None] if there is none *)
Definition first_match {R} (hold : R → bool) (l : list R) (o : option Z) : Prop :=
  match o with
  | Some j => 0 <= j ∧ (∃ x, l !! Z.to_nat j = Some x ∧ hold x = true) ∧
              ∀ i x, 0 <= i < j → l !! Z.to_nat i = Some x → hold x = false
  | None => ∀ x, x ∈ l → hold x = false
  end.

(** row [i] of a view, all [none] when there is no row *)
Definition orow {N A} (none : A) (v : view (N := N) (A := A)) (i : option Z) : list A :=
  match i with None => map (λ _, none) v | Some i => row none v (Z.to_nat i) end.

(** What a term of a lookup criterion stands for in row [i]: the field of that name if there
    is such a column, else the term itself. *)
Definition term_value {A} (none : A) (v : view (N := string) (A := A)) (i : nat) (name : option string) (literal : A) : A :=
  match name with
  | Some n => if decide (n ∈ names v) then field none v n i else literal
  | None => literal
  end.
