(** Terms of the statements about groupby and pivot. *)
From stdpp Require Import strings.
From Verif.Spec Require Import Groupby Rows.
From Verif.Model Require Import Groupby PivotGrid.
Local Open Scope Z_scope.

(** an accumulator run over a list of values *)
Definition run_state (acc : accumulator) (l : list pyval) : res gfun :=
  fold_left (λ r v, res_bind r (λ f, update f v)) l (Ok (new_fun acc)).
Definition run_acc (sqrt : Qc → Qc) (acc : accumulator) (l : list pyval) : res pyval :=
  res_bind (run_state acc l) (value_of sqrt).

Section layout.
  Context {T : Type}.
  Notation tbl := (list (string * column pyval T)).
  (** the lengths of the pages *)
  Definition layout (c : column pyval T) : list nat := map (λ p, length (pdata p)) c.
  (** the columns [ns] of the table have the same layout and hold native values *)
  Definition aligned (t : tbl) (ns : list string) : Prop :=
    ∀ m n c d, m ∈ ns → n ∈ ns → dget t m = Some c → dget t n = Some d → layout c = layout d.
  Definition native_cells (t : tbl) (ns : list string) : Prop :=
    ∀ n c, n ∈ ns → dget t n = Some c → Forall (λ v, native v = true) (col_iter c).
End layout.

Section pivot.
  Context {E : Type} (ek : pyval → E) (sqrt : Qc → Qc).
  Implicit Type v : view (N := string) (A := pyval).

  (** the values of a key column that are equal are the same *)
  Definition keys_apart v (keys : list string) (n : nat) : Prop :=
    ∀ m i j, m ∈ keys → (i < n)%nat → (j < n)%nat → ek (field VNone v m i) = ek (field VNone v m j) → field VNone v m i = field VNone v m j.
  (** the aggregate of a group, None if there are no rows *)
  Definition agg_cell v (keys : list string) (n : nat) (rk ck : list pyval) (f : string * accumulator) : pyval :=
    match members VNone v keys n (rk ++ ck) f.1 with
    | [] => VNone
    | l => match run_acc sqrt f.2 l with Ok x => x | Err _ => VNone end
    end.
  (** the rows of the result *)
  Definition agg_rows v rws columns n (functions : list (string * string)) (accs : list (string * accumulator)) : list (list pyval) :=
    concat (map (λ rk, map (λ fa, rk ++ VStr (fa.1.2 +:+ "(" +:+ fa.1.1 +:+ ")")%string ::
                                  map (λ ck, agg_cell v (rws ++ columns) n rk ck fa.2) (groups VNone v columns n))
                           (zip functions accs)) (groups VNone v rws n)).
  Definition agg_columns v rws columns n (accs : list (string * accumulator)) : list (list pyval) :=
    map (λ rk, rk ++ concat (map (λ ck, map (agg_cell v (rws ++ columns) n rk ck) accs) (groups VNone v columns n))) (groups VNone v rws n).
End pivot.

(** the names of the columns of a pivot *)
Definition col_label {A} (show : A → string) (columns : list string) (ck : list A) : string :=
  ("(" +:+ String.concat "," (terms show columns ck) +:+ ")")%string.
Definition fun_col_label {A} (show : A → string) (columns : list string) (ck : list A) (f : string * string) : string :=
  (f.2 +:+ "(" +:+ String.concat "," (f.1 :: terms show columns ck) +:+ ")")%string.
