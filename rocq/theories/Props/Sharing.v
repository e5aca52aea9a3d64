(** C16, C69 and the parts of C13 and C17 about shared objects.

    [run .. empty_heap os]: the tables t0, t1, ... after the program [os]; [step h o]: one more
    operation and how it ends.  [tab_view h i]: table i as a value, [contents]: its names and
    values.  Throughout: any page size [ps], any conversions [cast], [np_array] and any [eqb] of
    numpy. *)
From stdpp Require Import strings.
From Verif.Model Require Import Heap.
From Verif.Proof Require Import HeapProofs HeapFinal.
Local Open Scope string_scope.
Local Open Scope list_scope.
Local Open Scope Z_scope.

(** values for examples: ints and bools; arrays of both are object arrays, which convert nothing *)
Definition vty (x : Z + bool) : bool := match x with inl _ => false | inr _ => true end.
Definition veq (x y : Z + bool) : bool := bool_decide (x = y).
Notation vstep := (step vty 2 (λ _ x, Ok x) id veq).
Notation vrun := (run vty 2 (λ _ x, Ok x) id veq).
Notation e0 := (empty_heap (N := string) (A := Z + bool) (T := bool)).
Definition types_of (h : heap string (Z + bool) bool) (i : nat) : list (string * list (bool * Z)) :=
  map (λ c, (c.1, col_types c.2)) (tab_view h i).
Definition mixed : list (Z + bool) := [inl 1; inr false; inl 3].

(** ** C16
    Full statement: after [tk = ti.copy()] no operation on one of them (or on any other table)
    changes contents, length or type counts of the other.  False for the type counts:
    [t1 = t0.copy(); t1['a'].replace({1: True})] changes [t0['a'].types()]. *)
Definition copied : list (top string (Z + bool)) := [OSet 0 "a" mixed; OCopy 0 1].
Definition replaced : top string (Z + bool) := OCol 1 "a" (Replace [(inl 1, inr true)]).
Theorem C16_types_refuted :
  types_of (vrun e0 copied) 0 = [("a", [(false, 2); (true, 1)])] ∧
  types_of (vstep (vrun e0 copied) replaced).1 0 = [("a", [(true, 2); (false, 1)])] ∧
  contents (tab_view (vstep (vrun e0 copied) replaced).1 0) = [("a", mixed)].
Proof. by vm_compute. Qed.

(** Proved: the copy is equal, and whatever program follows, as long as it hands over no Column
    object from table k to another one or back ([respects]), an operation on table k leaves the
    contents of all others and an operation on others leaves the contents of table k; the type
    counts as well unless the operation is [replace]. *)
Theorem C16_copy_partial {N A T} `{EqDecision N, EqDecision T} (ty : A → T) ps cast np_array eqb os0 i k :
  let h0 := run ty ps cast np_array eqb (empty_heap (N := N)) os0 in
  let h := (step ty ps cast np_array eqb h0 (OCopy i k)).1 in
  tab_view h k = tab_view h0 i ∧
  ∀ os o x, Forall (respects (λ x, bool_decide (x = k))) os → respects (λ x, bool_decide (x = k)) o →
    bool_decide (x = k) ≠ bool_decide (target o = k) →
    let h1 := run ty ps cast np_array eqb h os in
    let h2 := (step ty ps cast np_array eqb h1 o).1 in
    contents (tab_view h2 x) = contents (tab_view h1 x) ∧
    (¬ replaces o → tab_view h2 x = tab_view h1 x).
Proof. exact (copy_contents ty ps cast np_array eqb os0 i k). Qed.
(** both tables are changed in many ways *)
Definition busy : list (top string (Z + bool)) :=
  [OCol 0 "a" (SetItem 1 (inr true)); OSetCol 1 "b" 1 "a"; OImul 1 2; OCol 1 "b" (Simple (DelInt 0)); OIadd 0 0; OSet 0 "c" [];
   OSelect 0 ["a"; "c"] 2; OCol 2 "a" (Simple (RemoveAll [inl 3]))].
Example C16_example :
  Forall (respects (λ x, bool_decide (x = 1%nat))) busy ∧
  contents (tab_view (vrun e0 (copied ++ busy)) 0) = [("a", [inl 1; inr true; inl 1; inr true]); ("c", [])] ∧
  map (λ c, length c.2) (contents (tab_view (vrun e0 (copied ++ busy)) 1)) = [11; 11]%nat.
Proof. split; [repeat constructor|by vm_compute]. Qed.
Print Assumptions C16_types_refuted.
Print Assumptions C16_copy_partial.

(** ** C69
    Full statement: a table made by selecting columns or rows is independent of its source.  False
    for whole columns: after [t1 = t0['a', 'b']] the assignment [t1['a'][0] = 9] changes t0. *)
Theorem C69_select_refuted :
  let os : list (top string (Z + bool)) := [OSet 0 "a" mixed; OSet 0 "b" []; OSelect 0 ["a"; "b"] 1; OCol 1 "a" (SetItem 0 (inl 9))] in
  contents (tab_view (vrun e0 os) 0) = [("a", [inl 9; inr false; inl 3]); ("b", [])].
Proof. by vm_compute. Qed.
(** Proved for selections with a slice: *)
Theorem C69_slice_partial {N A T} `{EqDecision N, EqDecision T} (ty : A → T) ps cast np_array eqb os0 i ns s k :
  let h0 := run ty ps cast np_array eqb (empty_heap (N := N)) os0 in
  let h := (step ty ps cast np_array eqb h0 (OSlice i ns s k)).1 in
  (step ty ps cast np_array eqb h0 (OSlice i ns s k)).2 = Ok () →
  ∀ os o x, Forall (respects (λ x, bool_decide (x = k))) os → respects (λ x, bool_decide (x = k)) o →
    bool_decide (x = k) ≠ bool_decide (target o = k) →
    let h1 := run ty ps cast np_array eqb h os in
    contents (tab_view (step ty ps cast np_array eqb h1 o).1 x) = contents (tab_view h1 x).
Proof. exact (slice_contents ty ps cast np_array eqb os0 i ns s k). Qed.
Example C69_example :
  let os : list (top string (Z + bool)) :=
    [OSet 0 "a" mixed; OSlice 0 ["a"] (Slice (Some 0) (Some 3) None) 1; OCol 1 "a" (SetItem 0 (inl 9))] in
  contents (tab_view (vrun e0 os) 0) = [("a", mixed)] ∧
  contents (tab_view (vrun e0 os) 1) = [("a", [inl 9; inr false; inl 3])].
Proof. by vm_compute. Qed.
Print Assumptions C69_select_refuted.
Print Assumptions C69_slice_partial.

(** ** C17, tables with shared columns
    [t['b'] = t['a']; t *= 2] repeats both four times; so does [t += t]. *)
Theorem C17_alias_refuted :
  let os : list (top string (Z + bool)) := [OSet 0 "a" [inl 1]; OSetCol 0 "b" 0 "a"] in
  contents (tab_view (vstep (vrun e0 os) (OImul 0 2)).1 0) = [("a", [inl 1; inl 1; inl 1; inl 1]); ("b", [inl 1; inl 1; inl 1; inl 1])] ∧
  contents (tab_view (vstep (vrun e0 os) (OIadd 0 0)).1 0) = [("a", [inl 1; inl 1; inl 1; inl 1]); ("b", [inl 1; inl 1; inl 1; inl 1])].
Proof. by vm_compute. Qed.
(** Proved: a table whose columns are different objects is repeated k times, and [ti += tj] does
    what Table.v says if moreover tj is ti or shares no column with it. *)
Theorem C17_imul_partial {N A T} `{EqDecision N, EqDecision T} (ty : A → T) ps cast np_array eqb os i k :
  let h := run ty ps cast np_array eqb (empty_heap (N := N)) os in
  NoDup (tabs h i).*2 → 0 < k →
  tab_view (step ty ps cast np_array eqb h (OImul i k)).1 i =
  map (λ c, (c.1, concat (replicate (Z.to_nat k) c.2))) (tab_view h i).
Proof. exact (program_imul ty ps cast np_array eqb os i k). Qed.
Theorem C17_iadd_partial {N A T} `{EqDecision N, EqDecision T} (ty : A → T) ps cast np_array eqb os i j :
  let h := run ty ps cast np_array eqb (empty_heap (N := N)) os in
  NoDup (tabs h i).*2 → (i = j ∨ ∀ a, a ∈ (tabs h i).*2 → a ∉ (tabs h j).*2) →
  match tbl_iadd (tab_view h i) (tab_view h j) with
  | Err e => step ty ps cast np_array eqb h (OIadd i j) = (h, Err e)
  | Ok t => (step ty ps cast np_array eqb h (OIadd i j)).2 = Ok () ∧
            tab_view (step ty ps cast np_array eqb h (OIadd i j)).1 i = t
  end.
Proof. exact (program_iadd ty ps cast np_array eqb os i j). Qed.
(** An operation on a column of the table is the one of Column.v if no other name has it. *)
Theorem C17_column_of_table {N A T} `{EqDecision N, EqDecision T} (ty : A → T) ps cast np_array eqb os i n a o :
  let h := run ty ps cast np_array eqb (empty_heap (N := N)) os in
  dget (tabs h i) n = Some a → (∀ m, (m, a) ∈ tabs h i → m = n) →
  match sop_run ps eqb ty cast o (col_view h a) with
  | Err e => step ty ps cast np_array eqb h (OCol i n (Simple o)) = (h, Err e)
  | Ok c => (step ty ps cast np_array eqb h (OCol i n (Simple o))).2 = Ok () ∧
            tab_view (step ty ps cast np_array eqb h (OCol i n (Simple o))).1 i = dset (tab_view h i) n c
  end.
Proof. exact (program_col ty ps cast np_array eqb os i n a o). Qed.
Example C17_sharing_example :
  let os : list (top string (Z + bool)) := [OSet 0 "a" mixed; OSet 0 "b" [inr true]; OCopy 0 1; OImul 1 2; OIadd 0 1] in
  NoDup (tabs (vrun e0 os) 0).*2 ∧
  contents (tab_view (vrun e0 os) 0) = [("a", mixed ++ mixed ++ mixed); ("b", [inr true; inr true; inr true])].
Proof. split; [by apply (bool_decide_unpack _); vm_compute|by vm_compute]. Qed.
Print Assumptions C17_alias_refuted.
Print Assumptions C17_imul_partial.
Print Assumptions C17_iadd_partial.
Print Assumptions C17_column_of_table.

(** ** C13, shared pages
    [c = [1, False]; c *= 2; c.replace({1: True})]: the one page is counted twice in its dict, which
    both new pages share; the counts say 6 bools. *)
Theorem C13_shared_refuted :
  let os : list (top string (Z + bool)) :=
    [OSet 0 "a" [inl 1; inr false]; OCol 0 "a" (Simple (Imul 2)); OCol 0 "a" (Replace [(inl 1, inr true)])] in
  contents (tab_view (vrun e0 os) 0) = [("a", [inr true; inr false; inr true; inr false])] ∧
  types_of (vrun e0 os) 0 = [("a", [(true, 6)])].
Proof. by vm_compute. Qed.
Print Assumptions C13_shared_refuted.
