(** C71: match.

    [matching eqb cs n js] (Spec/Match.v): [js] has for each of the [n] rows the row of the other table
    with which it agrees by the first criterion by which it agrees with any, or None if it agrees with
    none; [kept js l]: the values of the rows that have one; [partners none js l]: those of the rows found;
    [only names v]: the columns of these names.  [ordered], [sorts]: what is assumed of numpy's order and
    of [np.argsort]. *)
From stdpp Require Import strings.
From Verif.Spec Require Import Match.
From Verif.Model Require Import Match.
From Verif.Proof Require Import MatchProofs.
Local Open Scope Z_scope.
Local Open Scope string_scope.
Local Open Scope list_scope.

Definition xcol {A} (pages : list (list A)) : column A unit := map (new_page (λ _, ())) pages.
(** an [argsort] for ints, with the later of two equal values first if [flip] *)
Definition put (flip : bool) (x : list Z) (i : nat) (p : list nat) : list nat :=
  let before j := (if flip then Z.leb else Z.ltb) (default 0 (x !! j)) (default 0 (x !! i)) in
  filter (λ j, before j = true) p ++ i :: filter (λ j, before j = false) p.
Definition zsort (flip : bool) (x : list Z) : res (list nat) := Ok (fold_right (put flip x) [] (seq 0 (length x))).
Notation xrun flip := (match_ (λ _, ()) 2 Z.ltb Z.eqb (zsort flip)).

(** Full statement: as [lookup(..., all=False)] without the rows that find nothing: every row that agrees
    by some criterion with some row of the other table, with the first such row.  False: the row found by the
    first criterion comes before an earlier row found by the second, *)
Theorem C71_first_refuted :
  ∃ out, xrun false [("a", xcol [[1]]); ("b", xcol [[2]])] [("x", xcol [[2; 1]]); ("y", xcol [[10; 20]])]
           [("a", "==", "x"); ("b", "==", "x")] None None = Ok out ∧
    contents out = [("a", [1]); ("b", [2]); ("x", [1]); ("y", [20])].
Proof. eexists. split; by vm_compute. Qed.
(** of equal values any may be taken, as the order of ties in [np.argsort] is not fixed, *)
Theorem C71_ties_refuted :
  sorts Z.ltb [5; 5] [1; 0]%nat ∧ sorts Z.ltb [5; 5] [0; 1]%nat ∧
  ∃ p out, zsort false [5; 5] = Ok p ∧ sorts Z.ltb [5; 5] p ∧
    xrun false [("a", xcol [[5]])] [("x", xcol [[5; 5]]); ("y", xcol [[10; 20]])] [("a", "==", "x")] None None = Ok out ∧
    contents out = [("a", [5]); ("x", [5]); ("y", [10])] ∧
  ∃ p' out', zsort true [5; 5] = Ok p' ∧ sorts Z.ltb [5; 5] p' ∧
    xrun true [("a", xcol [[5]])] [("x", xcol [[5; 5]]); ("y", xcol [[10; 20]])] [("a", "==", "x")] None None = Ok out' ∧
    contents out' = [("a", [5]); ("x", [5]); ("y", [20])].
Proof.
  assert (Hs : ∀ p, Permutation p [0; 1]%nat → sorts Z.ltb [5; 5] p).
  { intros p Hp. split; [done|]. intros i j a b _ Ha Hb.
    apply bind_Some in Ha as (q & _ & Ha). apply bind_Some in Hb as (r & _ & Hb).
    destruct q as [|[|q]], r as [|[|r]]; cbn in Ha, Hb; by simplify_eq. }
  split; [apply Hs; constructor|]. split; [by apply Hs|].
  eexists _, _. split; [by vm_compute|]. split; [by apply Hs; vm_compute|]. split; [by vm_compute|]. split; [by vm_compute|].
  eexists _, _. split; [by vm_compute|]. split; [apply Hs; vm_compute; constructor|]. split; by vm_compute.
Qed.
(** and if the other table has no rows there is an IndexError instead of a table without rows. *)
Theorem C71_empty_refuted :
  xrun false [("a", xcol [[1]])] [("x", xcol []); ("y", xcol [])] [("a", "==", "x")] None None = Err IndexError.
Proof. by vm_compute. Qed.

(** Proved: every row that agrees by some criterion with some row comes once, with one of the rows with
    which it agrees, and no other row comes; the names are as they are, the later of two equal ones numbered. *)
Section C71.
  Context {A T : Type} `{EqDecision T} (ty : A → T) (ps : Z) (ltb eqb : A → A → bool) (argsort : list A → res (list nat)).
  Context (P : A → Prop) (none : A) (t other : table string A T) (criteria : list (string * string * string)) (cs : list (list A * list A)).
  Context (keep_left keep_right : option (list string)).
  Notation v := (contents t).
  Notation w := (contents other).
  Theorem C71_match_partial :
    0 < ps → NoDup t.*1 → rect (nrows v) v → rect (nrows w) w →
    (∀ x, x ∈ default t.*1 keep_left → x ∈ t.*1) → (∀ x, x ∈ default other.*1 keep_right → x ∈ other.*1) →
    Forall2 (λ k c, k.1.2 = "==" ∧ dget v k.1.1 = Some c.1 ∧ dget w k.2 = Some c.2) criteria cs →
    ordered ltb eqb P →
    Forall (λ c, Forall P c.1 ∧ Forall P c.2 ∧ ∃ p, argsort c.2 = Ok p ∧ sorts ltb c.2 p) cs →
    nrows w ≠ 0%nat ∨ nrows v = 0%nat ∨ criteria = [] →
    ∃ out js ns, match_ ty ps ltb eqb argsort t other criteria keep_left keep_right = Ok out ∧
      matching eqb cs (nrows v) js ∧
      let lefts := map (λ c, (c.1, kept js c.2)) (only (default t.*1 keep_left) v) in
      let rights := only (default other.*1 keep_right) w in
      contents out = lefts ++ zip ns (map (λ c, partners none js c.2) rights) ∧
      NoDup (names lefts ++ ns) ∧ length ns = length rights ∧
      ∀ i h n, names rights !! i = Some h → ns !! i = Some n →
        (h ∉ names lefts ++ take i ns → n = h) ∧
        (h ∈ names lefts ++ take i ns → ∃ k, n = (h +:+ "_" +:+ pretty (k : N))%string).
  Proof. intros. by eapply match_spec. Qed.
  (** without rows in the other table: always an IndexError *)
  Theorem C71_empty b a y :
    (∀ x, x ∈ default t.*1 keep_left → x ∈ t.*1) → (∀ x, x ∈ default other.*1 keep_right → x ∈ other.*1) →
    argsort [] = Ok [] → dget v b = Some y → y ≠ [] → dget w a = Some [] →
    match_ ty ps ltb eqb argsort t other ((b, "==", a) :: criteria) keep_left keep_right = Err IndexError.
  Proof. intros. by eapply match_empty. Qed.
End C71.
Example C71_example :
  let t := [("a", xcol [[7; 2]; [9]]); ("b", xcol [[0; 1; 3]])] in
  let other := [("x", xcol [[3; 9]; [7; 8]]); ("a", xcol [[1; 2; 3; 4]])] in
  let cs := [([7; 2; 9], [3; 9; 7; 8]); ([0; 1; 3], [3; 9; 7; 8])] in
  ordered Z.ltb Z.eqb (λ _, True) ∧
  (∃ p, zsort false [3; 9; 7; 8] = Ok p ∧ p = [0; 2; 3; 1]%nat ∧ sorts Z.ltb [3; 9; 7; 8] p) ∧
  matching Z.eqb cs 3 [Some 2%nat; None; Some 1%nat] ∧
  ∃ out, xrun false t other [("a", "==", "x"); ("b", "==", "x")] None (Some ["a"]) = Ok out ∧
    contents out = [("a", [7; 9]); ("b", [0; 3]); ("a_1", [3; 2])].
Proof.
  cbv zeta. split_and!.
  - split_and!; intros; lia.
  - eexists. split; [by vm_compute|]. split; [done|]. split.
    + apply NoDup_Permutation; [apply (bool_decide_unpack _); by vm_compute..|]. intros x. rewrite elem_of_seq. cbn [length].
      rewrite !elem_of_cons, elem_of_nil. lia.
    + intros i j a b Hij Ha Hb. destruct i as [|[|[|[|i]]]], j as [|[|[|[|j]]]]; try lia; try done; cbn in Ha, Hb; injection Ha as <-; injection Hb as <-; done.
  - split; [done|]. intros i j Hj. destruct i as [|[|[|i]]]; cbn in Hj; try done; injection Hj as <-.
    + exists 0%nat, ([7; 2; 9], [3; 9; 7; 8]). split; [done|]. split; [by exists 7, 7|]. intros; lia.
    + intros c j [->|[->|[]%elem_of_nil]%elem_of_cons]%elem_of_cons; intros (a & b & [= <-] & Hb & He); cbn in Hb;
        destruct j as [|[|[|[|j]]]]; cbn in Hb; try done; injection Hb as <-; done.
    + exists 0%nat, ([7; 2; 9], [3; 9; 7; 8]). split; [done|]. split; [by exists 9, 9|]. intros; lia.
  - eexists. split; by vm_compute.
Qed.

Print Assumptions C71_first_refuted.
Print Assumptions C71_ties_refuted.
Print Assumptions C71_empty_refuted.
Print Assumptions C71_match_partial.
Print Assumptions C71_empty.
