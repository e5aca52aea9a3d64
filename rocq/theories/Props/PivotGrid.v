(** C70: pivot.

    [groups], [members] are in Spec/Groupby.v, [rows], [rect], [field] in Spec/Rows.v, [eq_class]
    (Python's [==]) in Spec/PyValue.v.  [run_acc sqrt f l]: the aggregate [f] of the values [l] (see
    C41, C42).  [aligned], [native_cells], [new_names]: as in C40.
    [agg_cell sqrt v keys n rk ck f]: the aggregate [f] of the rows with the row key [rk] and the
    column key [ck], None if there are none.
    [agg_rows], [agg_columns]: for every row key in the order of first appearance one row per function
    (or one row), with the row key, the label of the function (or nothing) and the cells of the column
    keys in the order of first appearance.
    [keys_apart eq_class v keys n]: a key column has no two values that are [==] but not the same
    (1 and 1.0). *)
From stdpp Require Import strings pretty.
From Verif.Spec Require Import Groupby Grid.
From Verif.Model Require Import Groupby PivotGrid.
From Verif.Proof Require Import GroupbyProofs GroupbyTable PivotFinal.
Local Open Scope Z_scope.
Local Open Scope string_scope.
Local Open Scope list_scope.

Definition pcol (pages : list (list pyval)) : column pyval unit := map (new_page (λ _, ())) pages.
Definition pshow (v : pyval) : string :=
  match v with VInt z => pretty z | VStr s => s | VNone => "None" | VBool b => if b then "True" else "False" | _ => "?" end.
Notation prun := (pivot eq_class pshow (λ q, q) (λ _, ()) 2).

(** Full statement: a table has a pivot whenever it has a groupby, and in it every cell has the
    aggregate of the rows of its row key, column key and function.  False: 1 and 1.0 (or True) are
    two groups for groupby and one key for pivot, *)
Definition one_twice : table string pyval unit :=
  [("A", pcol [[VInt 1; VFloat (Qc_of_Z 1)]]); ("B", pcol [[VStr "x"; VStr "x"]]); ("C", pcol [[VInt 5; VInt 6]])].
Theorem C70_collision_refuted :
  (∃ out, tbl_groupby (λ q, q) (λ _, ()) 2 one_twice ["A"; "B"] [("C", "count")] = Ok out) ∧
  prun one_twice ["A"] ["B"] [("C", "count")] true = Err ValueError.
Proof. split; [eexists|]; by vm_compute. Qed.
(** and of two equal functions only the first has values. *)
Definition plain : table string pyval unit :=
  [("A", pcol [[VInt 1; VInt 2]; [VInt 1]]); ("B", pcol [[VStr "x"; VStr "x"]; [VStr "y"]]); ("C", pcol [[VInt 5; VInt 6]; [VInt 7]])].
Theorem C70_repeated_refuted :
  ∃ out, prun plain ["A"] ["B"] [("C", "count"); ("C", "Count")] true = Ok out ∧
    names (contents out) = ["A"; "function"; "(B=x)"; "(B=y)"] ∧
    rows VNone (contents out) =
      [[VInt 1; VStr "count(C)"; VInt 1; VInt 1]; [VInt 1; VStr "Count(C)"; VNone; VNone];
       [VInt 2; VStr "count(C)"; VInt 1; VNone]; [VInt 2; VStr "Count(C)"; VNone; VNone]].
Proof. eexists. split; [by vm_compute|]. by vm_compute. Qed.

(** Proved for columns with the same pages, different functions and keys without such values; missing
    besides these is the case of no functions.  The pivot exists iff all aggregates do. *)
Section C70.
  Context {T : Type} `{EqDecision T} (show : pyval → string) (sqrt : Qc → Qc) (ty : pyval → T) (ps : Z) (t : table string pyval T).
  Context (rws columns : list string) (functions : list (string * string)) (accs : list (string * accumulator)) (n : nat).
  Notation v := (contents t).
  Notation keys := (rws ++ columns).
  Definition pivotable : Prop :=
    0 < ps ∧ rect n v ∧ NoDup keys ∧ functions ≠ [] ∧ str2accs functions = Ok accs ∧
    (∀ m, m ∈ keys ++ functions.*1 → m ∈ t.*1) ∧ NoDup (new_names keys accs) ∧
    aligned t (keys ++ functions.*1) ∧ native_cells t (keys ++ functions.*1).
  Definition aggregates : Prop :=
    ∀ k f, k ∈ groups VNone v keys n → f ∈ accs → ∃ x, run_acc sqrt f.2 (members VNone v keys n k f.1) = Ok x.

  Theorem C70_pivot_partial b : pivotable → (0 < n)%nat → keys_apart eq_class v keys n →
    aggregates ↔ ∃ out, pivot eq_class show sqrt ty ps t rws columns functions b = Ok out.
  Proof. intros (? & ? & ? & ? & ? & ? & ? & ? & ?) ? ?. by apply pivot_ok. Qed.

  (** More rows.  The names are the row names, "function" and one "(name=value,...)" per column key, made
      different by [unique_name] (C48). *)
  Theorem C70_rows_partial out : pivotable → (0 < n)%nat → keys_apart eq_class v keys n →
    pivot eq_class show sqrt ty ps t rws columns functions true = Ok out →
    dedup_headers (rws ++ ["function"] ++ map (col_label show columns) (groups VNone v columns n)) = Some (names (contents out)) ∧
    rows VNone (contents out) = agg_rows sqrt v rws columns n functions accs.
  Proof. intros (? & ? & ? & ? & ? & ? & ? & ? & ?) ? ?. by eapply pivot_as_rows. Qed.

  (** More columns. The names are the row names and for every column key one "function(column,name=value,...)"
      per function, with a number if it is taken. *)
  Theorem C70_columns_partial out : pivotable → (0 < n)%nat → keys_apart eq_class v keys n →
    pivot eq_class show sqrt ty ps t rws columns functions false = Ok out →
    let labels := concat (map (λ ck, map (fun_col_label show columns ck) functions) (groups VNone v columns n)) in
    (∃ ns, names (contents out) = rws ++ ns ∧ NoDup (rws ++ ns) ∧
      Forall2 (λ l m, m = l ∨ ∃ k, m = numbered l k) labels ns ∧ (NoDup (rws ++ labels) → ns = labels)) ∧
    rows VNone (contents out) = agg_columns sqrt v rws columns n accs.
  Proof. intros (? & ? & ? & ? & ? & ? & ? & ? & ?) ? ?. by eapply pivot_as_columns. Qed.

  (** No rows: an empty table. *)
  Theorem C70_empty b : pivotable → n = 0%nat → pivot eq_class show sqrt ty ps t rws columns functions b = Ok [].
  Proof. intros (? & ? & ? & ? & ? & ? & ? & ? & ?) ?. by eapply pivot_empty. Qed.

  (** Two groups with equal keys: the whole pivot fails. *)
  Theorem C70_collision b k k' : pivotable → (0 < n)%nat → aggregates →
    k ∈ groups VNone v keys n → k' ∈ groups VNone v keys n → k ≠ k' → map eq_class k = map eq_class k' →
    pivot eq_class show sqrt ty ps t rws columns functions b = Err ValueError.
  Proof. intros (? & ? & ? & ? & ? & ? & ? & ? & ?) ? ?. by eapply pivot_collision. Qed.
End C70.

Example C70_example :
  let functions := [("C", "sum"); ("C", "Count")] in
  pivotable 2 plain ["A"] ["B"] functions [("C", Sum); ("C", Count)] 3 ∧
  keys_apart eq_class (contents plain) ["A"; "B"] 3 ∧
  (∃ out, prun plain ["A"] ["B"] functions true = Ok out ∧
    names (contents out) = ["A"; "function"; "(B=x)"; "(B=y)"] ∧
    rows VNone (contents out) =
      [[VInt 1; VStr "sum(C)"; VFloat (Qc_of_Z 5); VFloat (Qc_of_Z 7)]; [VInt 1; VStr "Count(C)"; VInt 1; VInt 1];
       [VInt 2; VStr "sum(C)"; VFloat (Qc_of_Z 6); VNone]; [VInt 2; VStr "Count(C)"; VInt 1; VNone]]) ∧
  ∃ out, prun plain ["A"] ["B"] functions false = Ok out ∧
    names (contents out) = ["A"; "sum(C,B=x)"; "Count(C,B=x)"; "sum(C,B=y)"; "Count(C,B=y)"] ∧
    rows VNone (contents out) =
      [[VInt 1; VFloat (Qc_of_Z 5); VInt 1; VFloat (Qc_of_Z 7); VInt 1];
       [VInt 2; VFloat (Qc_of_Z 6); VInt 1; VNone; VNone]].
Proof.
  cbv zeta. split; [|split; [|split]].
  - unfold pivotable. split; [done|]. split; [repeat constructor|]. split; [apply (bool_decide_unpack _); by vm_compute|].
    split; [done|]. split; [by vm_compute|]. split; [apply list.Forall_forall; apply (bool_decide_unpack _); by vm_compute|].
    split; [apply (bool_decide_unpack _); by vm_compute|].
    assert (Hsel : ∀ m c, dget plain m = Some c → layout c = [2%nat; 1%nat] ∧ Forall (λ v, native v = true) (col_iter c)).
    { intros m c. unfold plain. cbn [dget]. repeat case_decide; try done; intros [= <-];
        (split; [by vm_compute|]); repeat constructor. }
    split; [intros m m' c d _ _ Hc Hd; by rewrite (proj1 (Hsel _ _ Hc)), (proj1 (Hsel _ _ Hd))|].
    intros m c _ Hc; exact (proj2 (Hsel _ _ Hc)).
  - intros m i j Hm Hi Hj. apply elem_of_cons in Hm as [->|Hm]; [|apply elem_of_list_singleton in Hm as ->];
      (destruct i as [|[|[|i]]]; [..|lia]); (destruct j as [|[|[|j]]]; [..|lia]); try done; vm_compute; intros; try done; congruence.
  - eexists. split; [by vm_compute|]. split; [by vm_compute|]. apply (bool_decide_unpack _); by vm_compute.
  - eexists. split; [by vm_compute|]. split; [by vm_compute|]. apply (bool_decide_unpack _); by vm_compute.
Qed.
(** the hypotheses of the collision *)
Example C70_collision_example :
  pivotable 2 one_twice ["A"] ["B"] [("C", "count")] [("C", Count)] 2 ∧
  groups VNone (contents one_twice) ["A"; "B"] 2 = [[VInt 1; VStr "x"]; [VFloat (Qc_of_Z 1); VStr "x"]] ∧
  map eq_class [VInt 1; VStr "x"] = map eq_class [VFloat (Qc_of_Z 1); VStr "x"].
Proof.
  split; [|split; [apply (bool_decide_unpack _); by vm_compute|done]].
  unfold pivotable. split; [done|]. split; [repeat constructor|]. split; [apply (bool_decide_unpack _); by vm_compute|].
  split; [done|]. split; [by vm_compute|]. split; [apply list.Forall_forall; apply (bool_decide_unpack _); by vm_compute|].
  split; [apply (bool_decide_unpack _); by vm_compute|].
  assert (Hsel : ∀ m c, dget one_twice m = Some c → layout c = [2%nat] ∧ Forall (λ v, native v = true) (col_iter c)).
  { intros m c. unfold one_twice. cbn [dget]. repeat case_decide; try done; intros [= <-];
      (split; [by vm_compute|]); repeat constructor. }
  split; [intros m m' c d _ _ Hc Hd; by rewrite (proj1 (Hsel _ _ Hc)), (proj1 (Hsel _ _ Hd))|].
  intros m c _ Hc; exact (proj2 (Hsel _ _ Hc)).
Qed.
Print Assumptions C70_collision_refuted.
Print Assumptions C70_repeated_refuted.
Print Assumptions C70_pivot_partial.
Print Assumptions C70_rows_partial.
Print Assumptions C70_columns_partial.
Print Assumptions C70_empty.
Print Assumptions C70_collision.
