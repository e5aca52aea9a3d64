(** C72: where (two columns merged into one).

    [merged v left right new values] (Spec/Merge.v): [v] with the column [new] at its place or at the
    end and without the columns [left] and [right]; [choose criteria l r]: the values of [l] where the
    criterion holds, else those of [r].  [promote l r v]: the value [v] in an array of the common dtype
    of [l] and [r] (numpy, not part of tablite). *)
From stdpp Require Import strings.
From Verif.Spec Require Import Merge.
From Verif.Model Require Import Merge.
From Verif.Proof Require Import MergeProofs.
Local Open Scope Z_scope.
Local Open Scope string_scope.
Local Open Scope list_scope.

Definition mcol {A} (pages : list (list A)) : column A unit := map (new_page (λ _, ())) pages.
Notation mrun := (where_ (λ _, ()) (λ _ _ v, v) 2).

(** Full statement: for tables with columns [left], [right] and as many criteria as rows, the result is
    the merged table.  False: with more rows than a page it fails and leaves an empty column behind, *)
Theorem C72_pages_refuted :
  ∃ t', mrun [("a", mcol [[1; 2]; [3]]); ("b", mcol [[4; 5]; [6]])] [true; false; true] "a" "b" "c" = (Err ValueError, t') ∧
    contents t' = [("a", [1; 2; 3]); ("b", [4; 5; 6]); ("c", [])].
Proof. eexists. split; by vm_compute. Qed.
(** a column that has the new name already is overwritten and the new one is there twice, *)
Theorem C72_names_refuted :
  ∃ t', mrun [("a", mcol [[1; 2]]); ("b", mcol [[4; 5]]); ("c", mcol [[7; 8]])] [true; false] "a" "b" "c" = (Ok t', t') ∧
    contents t' = [("c", [1; 5]); ("c_1", [1; 5])].
Proof. eexists. split; by vm_compute. Qed.
(** a column merged with itself under its own name is lost (under another name there is a KeyError), *)
Theorem C72_same_refuted :
  (∃ t', mrun [("a", mcol [[1; 2]]); ("b", mcol [[4; 5]])] [true; false] "a" "a" "a" = (Ok t', t') ∧
    contents t' = [("b", [4; 5])]) ∧
  (∃ t', mrun [("a", mcol [[1; 2]]); ("b", mcol [[4; 5]])] [true; false] "a" "a" "c" = (Err KeyError, t') ∧
    contents t' = [("b", [4; 5]); ("c", [1; 2])]).
Proof. split; eexists; split; by vm_compute. Qed.
(** and an int becomes a text if the other column has texts: [np.where([True, False], [1, 2], ["x", "y"])]
    is [["1", "y"]]. *)
Definition promote_text (l r : list (Z + string)) (v : Z + string) : Z + string :=
  if existsb (λ x, match x with inr _ => true | inl _ => false end) (l ++ r)
  then match v with inl z => inr (pretty z) | inr s => inr s end else v.
Theorem C72_types_refuted :
  ∃ t', where_ (λ _, ()) promote_text 2 [("a", mcol [[inl 1; inl 2]]); ("b", mcol [[inr "x"; inr "y"]])] [true; false] "a" "b" "c" = (Ok t', t') ∧
    contents t' = [("c", [inr "1"; inr "y"])].
Proof. eexists. split; by vm_compute. Qed.

(** Proved for at most one page of rows, two different columns, values that the common dtype has, and a
    new name which is that of one of the two or of none. *)
Theorem C72_where_partial {A T} `{EqDecision T} (ty : A → T) (promote : list A → list A → A → A) (ps : Z)
    (t : table string A T) criteria left right new l r n :
  0 < ps → NoDup t.*1 → rect n (contents t) → length criteria = n → Z.of_nat n <= ps → left ≠ right →
  dget (contents t) left = Some l → dget (contents t) right = Some r →
  new = left ∨ new = right ∨ new ∉ t.*1 →
  Forall (λ x, promote l r x = x) (l ++ r) →
  ∃ t', where_ ty promote ps t criteria left right new = (Ok t', t') ∧
    contents t' = merged (contents t) left right new (choose criteria l r).
Proof. intros. by eapply where_spec. Qed.
Example C72_example :
  let t := [("x", mcol [[9]; [8]]); ("a", mcol [[1; 2]]); ("b", mcol [[4]; [5]])] in
  merged (contents t) "a" "b" "a" (choose [false; true] [1; 2] [4; 5]) = [("x", [9; 8]); ("a", [4; 2])] ∧
  merged (contents t) "a" "b" "b" (choose [false; true] [1; 2] [4; 5]) = [("x", [9; 8]); ("b", [4; 2])] ∧
  merged (contents t) "a" "b" "c" (choose [false; true] [1; 2] [4; 5]) = [("x", [9; 8]); ("c", [4; 2])] ∧
  (∃ t', mrun t [false; true] "a" "b" "b" = (Ok t', t') ∧ contents t' = [("x", [9; 8]); ("b", [4; 2])]).
Proof. cbv zeta. split_and!; [by vm_compute..|]. eexists. split; by vm_compute. Qed.

(** What goes wrong with more rows than a page (of two values or more): always. *)
Theorem C72_pages {A T} `{EqDecision T} (ty : A → T) (promote : list A → list A → A → A) (ps : Z)
    (t : table string A T) criteria left right new n :
  rect n (contents t) → length criteria = n → 1 < ps → ps < Z.of_nat n → left ∈ t.*1 → right ∈ t.*1 →
  ∃ t' name, where_ ty promote ps t criteria left right new = (Err ValueError, t') ∧
    name ∉ t.*1 ∧ contents t' = contents t ++ [(name, [])].
Proof. intros. eapply where_pages; (eassumption || lia). Qed.

Print Assumptions C72_pages_refuted.
Print Assumptions C72_names_refuted.
Print Assumptions C72_same_refuted.
Print Assumptions C72_types_refuted.
Print Assumptions C72_where_partial.
Print Assumptions C72_pages.
