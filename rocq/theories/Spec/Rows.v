(** Tables as seen by a user: named columns of values, read row by row.
    This file knows nothing of tablite. *)
From Verif.Spec Require Export Base PyList Counts.
From Coq Require Export Sorted.
Local Open Scope Z_scope.

Section rows.
  Context {N A : Type} `{EqDecision N} (none : A).

  (** A table's contents: its columns in order, each with its values. *)
  Definition view : Type := list (N * list A).

  Definition names (v : view) : list N := v.*1.

  (** The number of rows: the length of the longest column. *)
  Definition nrows (v : view) : nat := list_max (map (λ c, length c.2) v).

  (** All columns have [n] values. *)
  Definition rect (n : nat) (v : view) : Prop := Forall (λ c, length c.2 = n) v.

  (** Row [i]: the [i]-th value of every column, [none] where the column is
      shorter. *)
  Definition row (v : view) (i : nat) : list A := map (λ c, default none (c.2 !! i)) v.

  Definition rows (v : view) : list (list A) := map (row v) (seq 0 (nrows v)).

  (** The value in row [i] under the name [n]; [none] if there is no such column
      or no such row. *)
  Fixpoint field (v : view) (n : N) (i : nat) : A :=
    match v with
    | [] => none
    | (m, c) :: v => if decide (m = n) then default none (c !! i) else field v n i
    end.

  (** The same columns (in any order) with values related by [R]. *)
  Definition same_view (R : A → A → Prop) (v w : view) : Prop :=
    (∀ n, n ∈ names v ↔ n ∈ names w) ∧
    ∀ n l k, (n, l) ∈ v → (n, k) ∈ w → Forall2 R l k.

  (** The key of row [i] on the columns [args]; [key] maps a value to its class
      under Python's [==]. *)
  Definition row_key {K} (key : A → K) (v : view) (args : list N) (i : nat) : list K :=
    map (λ n, key (field v n i)) args.

  (** All row keys of a view with [n] rows. *)
  Definition row_keys {K} (key : A → K) (v : view) (args : list N) (n : nat) : list (list K) :=
    map (row_key key v args) (seq 0 n).
End rows.

(** [ixs] lists, ascending, exactly the positions at which a value of [ks] occurs for
    the first time. *)
Definition first_occurrences {K} (ks : list K) (ixs : list Z) : Prop :=
  StronglySorted Z.lt ixs ∧
  ∀ i, i ∈ ixs ↔ 0 <= i ∧ ∃ k, ks !! Z.to_nat i = Some k ∧ k ∉ take (Z.to_nat i) ks.

Example rows_test :
  rows 0 [(true, [1; 2; 3]); (false, [4])] = [[1; 4]; [2; 0]; [3; 0]].
Proof. reflexivity. Qed.
