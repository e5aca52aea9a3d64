(** Facts in a grid.  Knows nothing of tablite. *)
From stdpp Require Export strings.
From Verif.Spec Require Export Rows.

Section grid.
  (** [ek x = ek y]: [x] and [y] count as equal *)
  Context {A E : Type} `{EqDecision E} (ek : A → E) (none : A).

  (** of the keys that count as equal, the first *)
  Fixpoint firsts (ks : list (list A)) : list (list A) :=
    match ks with
    | [] => []
    | k :: ks => k :: filter (λ k', map ek k' ≠ map ek k) (firsts ks)
    end.

  (** a row key, a column key and the values there *)
  Notation fact := (list A * list A * list A)%type.
  Definition fact_at (facts : list fact) (rk ck : list A) : option (list A) :=
    snd <$> head (filter (λ f, map ek f.1.1 = map ek rk ∧ map ek f.1.2 = map ek ck) facts).
  (** the [j]-th value at [rk], [ck]; [none] if there is no fact *)
  Definition cell (facts : list fact) (rk ck : list A) (j : nat) : A :=
    default none (fact_at facts rk ck ≫= λ vs, vs !! j).

  Definition row_keys_of (facts : list fact) := firsts facts.*1.*1.
  Definition col_keys_of (facts : list fact) := firsts facts.*1.*2.

  (** for every row key one row per value, with its label, and one column per column key *)
  Definition grid_as_rows (labels : list A) (facts : list fact) : list (list A) :=
    concat (map (λ rk, map (λ jl, rk ++ jl.2 :: map (λ ck, cell facts rk ck jl.1) (col_keys_of facts))
                           (zip (seq 0 (length labels)) labels)) (row_keys_of facts)).
  (** one row per row key, and for every column key one column per value *)
  Definition grid_as_columns (g : nat) (facts : list fact) : list (list A) :=
    map (λ rk, rk ++ concat (map (λ ck, map (cell facts rk ck) (seq 0 g)) (col_keys_of facts))) (row_keys_of facts).
End grid.

Example grid_test :
  let facts := [([1], [10], [100; 200]); ([2], [10], [101; 201]); ([1], [20], [102; 202])] in
  grid_as_rows (λ x, x) 0 [7; 8] facts = [[1; 7; 100; 102]; [1; 8; 200; 202]; [2; 7; 101; 0]; [2; 8; 201; 0]] ∧
  grid_as_columns (λ x, x) 0 2 facts = [[1; 100; 200; 102; 202]; [2; 101; 201; 0; 0]].
Proof. done. Qed.
