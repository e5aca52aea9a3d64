(** C110: the type that most values of a column have.

    Full claim: for every table [get_predominant_types] names, for every column, a type that no other type of its values outnumbers
    (None does not count), and "empty" if there is no value but None.  False where the counts of a column are wrong (C13). *)
From Coq Require Import String.
From Verif.Spec Require Import Predominant.
From Verif.Model Require Import Column ColumnOps Dtype Predominant.
From Verif.Proof Require Import ColumnFinal PredominantProofs.
Local Open Scope list_scope.
Local Open Scope Z_scope.

(** For the examples. *)
Definition ctype_name (t : ctype) : string :=
  match t with TNone => "NoneType" | TBool => "bool" | TInt => "int" | TFloat => "float" | TStr => "str" end.

(** ** Tables whose counts are right *)
Theorem C110_table_partial :
  ∀ {N A T} `{EqDecision T} (none_type : T) (type_name : T → string) (ty : A → T) (t : table N A T),
  Forall (λ c, counts_exactly (col_types c.2) (map ty (col_iter c.2))) t →
  Forall2 (λ c r, r.1 = c.1 ∧
    ((Forall (λ v, ty v = none_type) c.2 ∧ r.2 = "empty"%string) ∨
     ∃ k, most_frequent none_type (map ty c.2) k ∧ r.2 = type_name k))
    (contents t) (get_predominant_types none_type type_name t None).
Proof. intros. by apply table_selected. Qed.
Print Assumptions C110_table_partial.

(** ** Columns built by any operations but deletion by position and [remove_all] *)
Theorem C110_built_partial :
  ∀ {A T} `{EqDecision T} (none_type : T) (type_name : T → string) (ty : A → T) cast ps (allowed : col_op A T → Prop) (c : column A T),
  (∀ o, allowed o → match o with OpDelItem _ | OpRemoveAll _ _ => False | _ => True end) →
  built ty cast ps allowed c →
  (Forall (λ k, k = none_type) (map ty (col_iter c)) ∧ select_type_name none_type type_name (col_types c) = "empty"%string) ∨
  ∃ k, most_frequent none_type (map ty (col_iter c)) k ∧ select_type_name none_type type_name (col_types c) = type_name k.
Proof. intros * H1 H2. exact (selected none_type type_name _ _ (built_counts ty cast ps allowed c H1 H2)). Qed.
Print Assumptions C110_built_partial.

(** ** Equal counts: the first type counted *)
Theorem C110_first :
  ∀ {T} `{EqDecision T} (none_type : T) (type_name : T → string) (d pre post : list (T * Z)) k n,
  d = pre ++ (k, n) :: post → k ≠ none_type →
  (∀ k' n', (k', n') ∈ pre → k' ≠ none_type → n' < n) → (∀ k' n', (k', n') ∈ post → k' ≠ none_type → n' <= n) →
  select_type_name none_type type_name d = type_name k.
Proof. intros T E none_type type_name. exact (named_first none_type type_name). Qed.
Print Assumptions C110_first.

(** Counts given by the caller are used instead of those of the table. *)
Theorem C110_given :
  ∀ {N A T} `{EqDecision T} (none_type : T) (type_name : T → string) (t : table N A T) ds kss,
  Forall2 (λ e ks, counts_exactly e.2 ks) ds kss →
  Forall2 (λ e r, r.1 = e.1.1 ∧
    ((Forall (λ k, k = none_type) e.2 ∧ r.2 = "empty"%string) ∨
     ∃ k, most_frequent none_type e.2 k ∧ r.2 = type_name k))
    (zip ds kss) (get_predominant_types none_type type_name t (Some ds)).
Proof. intros N A T E none_type type_name. exact (given_selected none_type type_name). Qed.
Print Assumptions C110_given.

Example C110_example :
  let t := [("a", col_new cty 2 [CNone; CInt 1; CNone; CStr "x"; CNone; CStr "y"]);
            ("b", col_new cty 2 [CNone]); ("c", col_new cty 2 [CInt 1; CFloat 50])]%string in
  get_predominant_types TNone ctype_name t None = [("a", "str"); ("b", "empty"); ("c", "int")]%string ∧
  get_predominant_types TNone ctype_name t (Some [("z", [(TInt, 1); (TNone, 9); (TFloat, 3); (TStr, 3)])]) = [("z", "float")]%string.
Proof. by vm_compute. Qed.

(** ** After deletions the name may be that of a type which no value has. *)
Theorem C110_deleted_refuted :
  ∃ c, res_bind (col_delitem (col_new cty 4 [CInt 1; CStr "x"; CStr "y"]) 1) (λ c, col_delitem c 1) = Ok c ∧
    col_iter c = [CInt 1] ∧ get_predominant_types TNone ctype_name [("a", c)]%string None = [("a", "str")]%string.
Proof. eexists. split; [by vm_compute|]. split; by vm_compute. Qed.
Print Assumptions C110_deleted_refuted.
