(** C40-C42: groupby.

    [groups], [members], [numerals], [at_most], [same_as], [middle_two], [is_mode] are in
    Spec/Groupby.v, [qsum], [qmean], [qvar] in Spec/Statistics.v, [rows], [rect] in Spec/Rows.v.
    [run_acc sqrt f l]: an aggregate [f] that was given the values [l] one after the other, read
    by [value].  [aligned t ns]: the pages of the columns [ns] have the same lengths.
    [native_cells t ns]: the columns [ns] hold None, bool, int, float, str, date, time and
    datetime only. *)
From Coq Require Import Sorted.
From Verif.Spec Require Import Groupby.
From Verif.Model Require Import Groupby.
From Verif.Proof Require Import GroupbyProofs GroupbyTable GroupbyAcc GroupbyHist.
Local Open Scope Z_scope.
Local Open Scope string_scope.
Local Open Scope list_scope.

Ltac compute_value := vm_compute; first
  [ done | do 2 f_equal; by apply Qc_is_canon | do 3 f_equal; by apply Qc_is_canon ].
Definition gcol (pages : list (list pyval)) : column pyval unit := map (new_page (λ _, ())) pages.

(** ** C40
    Full statement: one row per combination of keys in order of first appearance, with the
    aggregates of the group's values, for every page layout.  False: rows are zipped page by
    page, so that rows are lost if two columns have different pages. *)
Definition uneven : table string pyval unit :=
  [("A", gcol [[VInt 1; VInt 2]; [VInt 1]]); ("B", gcol [[VInt 10]; [VInt 20; VInt 30]])].
Theorem C40_layout_refuted :
  rect 3 (contents uneven) ∧
  groups VNone (contents uneven) ["A"] 3 = [[VInt 1]; [VInt 2]] ∧
  ∃ out, nim_groupby (λ q, q) (λ _, ()) 2 uneven ["A"] [("B", Last)] = Ok out ∧
    names (contents out) = ["A"; "Last(B)"] ∧ rows VNone (contents out) = [[VInt 1; VInt 20]].
Proof. split; [repeat constructor|]. split; [by vm_compute|]. eexists. split; [by vm_compute|]. by vm_compute. Qed.

(** Proved for columns with the same pages: the result exists iff every aggregate of every group
    has a value (see C41, C42), and then has the columns [new_names] and for every group [k] the
    row [k ++ vs], [vs] the aggregates of the group's values in row order.
    Missing, besides the layouts: result columns with the same name ([new_names] not NoDup: two
    equal functions, or a key called "Sum(x)"), where the later one takes the place of the
    earlier one; values without a native form (bytes, timedelta), which are read as objects.
    Groups are combinations of equal values of the same type: 1 and 1.0 are two groups. *)
Theorem C40_groupby_partial (sqrt : Qc → Qc) {T} `{EqDecision T} (ty : pyval → T) (ps : Z)
    (t : table string pyval T) (keys : list string) (functions : list (string * accumulator)) n :
  rect n (contents t) → NoDup keys → functions ≠ [] →
  (∀ m, m ∈ keys ++ functions.*1 → m ∈ t.*1) → NoDup (new_names keys functions) →
  aligned t (keys ++ functions.*1) → native_cells t (keys ++ functions.*1) →
  let v := contents t in
  ((∀ k f, k ∈ groups VNone v keys n → f ∈ functions →
      ∃ x, run_acc sqrt f.2 (members VNone v keys n k f.1) = Ok x) ↔
    ∃ out, nim_groupby sqrt ty ps t keys functions = Ok out) ∧
  ∀ out, nim_groupby sqrt ty ps t keys functions = Ok out →
    names (contents out) = new_names keys functions ∧
    Forall2 (λ k row, ∃ vs, row = k ++ vs ∧
        Forall2 (λ f x, run_acc sqrt f.2 (members VNone v keys n k f.1) = Ok x) functions vs)
      (groups VNone v keys n) (rows VNone (contents out)).
Proof. exact (groupby_spec ty ps sqrt t keys functions n). Qed.

(** Without functions: the distinct combinations. *)
Theorem C40_keys_partial (sqrt : Qc → Qc) {T} `{EqDecision T} (ty : pyval → T) (ps : Z)
    (t : table string pyval T) (keys : list string) n :
  rect n (contents t) → NoDup keys → keys ≠ [] → (∀ m, m ∈ keys → m ∈ t.*1) →
  aligned t keys → native_cells t keys →
  ∃ out, nim_groupby sqrt ty ps t keys [] = Ok out ∧ names (contents out) = keys ∧
    rows VNone (contents out) = groups VNone (contents t) keys n.
Proof. exact (groupby_keys_spec ty ps sqrt t keys n). Qed.

Definition even : table string pyval unit :=
  [("A", gcol [[VInt 1; VStr "x"]; []; [VInt 1; VNone; VStr "x"]]);
   ("C", gcol [[VBool true; VBool true]; []; [VBool true; VBool false; VBool true]]);
   ("B", gcol [[VInt 10; VInt 20]; []; [VInt 30; VInt 40; VInt 50]])].
Example C40_example :
  rect 5 (contents even) ∧ NoDup ["A"; "C"] ∧
  (∀ m, m ∈ ["A"; "C"] ++ [("B", Sum); ("B", Count)].*1 → m ∈ even.*1) ∧
  NoDup (new_names ["A"; "C"] [("B", Sum); ("B", Count)]) ∧
  aligned even (["A"; "C"] ++ [("B", Sum); ("B", Count)].*1) ∧
  native_cells even (["A"; "C"] ++ [("B", Sum); ("B", Count)].*1) ∧
  groups VNone (contents even) ["A"; "C"] 5 =
    [[VInt 1; VBool true]; [VStr "x"; VBool true]; [VNone; VBool false]] ∧
  ∃ out, nim_groupby (λ q, q) (λ _, ()) 2 even ["A"; "C"] [("B", Sum); ("B", Count)] = Ok out ∧
    names (contents out) = ["A"; "C"; "Sum(B)"; "Count(B)"] ∧
    rows VNone (contents out) =
      [[VInt 1; VBool true; VFloat (Qc_of_Z 40); VInt 2];
       [VStr "x"; VBool true; VFloat (Qc_of_Z 70); VInt 2];
       [VNone; VBool false; VFloat (Qc_of_Z 40); VInt 1]].
Proof.
  split; [repeat constructor|]. split; [apply (bool_decide_unpack _); by vm_compute|].
  split; [apply list.Forall_forall; apply (bool_decide_unpack _); by vm_compute|]. split; [apply (bool_decide_unpack _); by vm_compute|].
  assert (Hsel : ∀ m c, dget even m = Some c → layout c = [2%nat; 0%nat; 3%nat] ∧ Forall (λ v, native v = true) (col_iter c)).
  { intros m c. unfold even. cbn [dget]. repeat case_decide; try done; intros [= <-];
      (split; [by vm_compute|]); repeat constructor. }
  split; [intros m m' c d _ _ Hc Hd; by rewrite (proj1 (Hsel _ _ Hc)), (proj1 (Hsel _ _ Hd))|].
  split; [intros m c _ Hc; exact (proj2 (Hsel _ _ Hc))|]. split; [by vm_compute|].
  eexists. split; [by vm_compute|]. split; [by vm_compute|].
  apply (bool_decide_unpack _); by vm_compute.
Qed.
Print Assumptions C40_layout_refuted.
Print Assumptions C40_groupby_partial.
Print Assumptions C40_keys_partial.

(** ** C41 *)
(** count, first and last: for all values *)
Theorem C41_count (sqrt : Qc → Qc) l : run_acc sqrt Count l = Ok (VInt (zlen l)).
Proof. exact (run_count sqrt l). Qed.
Theorem C41_first (sqrt : Qc → Qc) v l : run_acc sqrt First (v :: l) = Ok v.
Proof. exact (run_first sqrt v l). Qed.
Theorem C41_last (sqrt : Qc → Qc) l v : run_acc sqrt Last (l ++ [v]) = Ok v.
Proof. exact (run_last sqrt l v). Qed.
(** equal values of ints and floats, and of dates and datetimes, are counted once *)
Theorem C41_count_unique (sqrt : Qc → Qc) l : Forall (λ v, native v = true) l →
  run_acc sqrt CountUnique l = Ok (VInt (zlen (distinct (map same_as l)))).
Proof. exact (run_count_unique sqrt l). Qed.

(** Full statement for the others: the textbook value for every list in which Python's operators
    are defined.  False: *)
Theorem C41_sum_bool_refuted (sqrt : Qc → Qc) :
  run_acc sqrt Sum [VBool true; VBool true] = Ok (VFloat 0%Qc).
Proof. done. Qed.
Theorem C41_product_none_refuted (sqrt : Qc → Qc) :
  run_acc sqrt Product [VInt 3; VNone; VBool true] = Ok (VFloat 0%Qc).
Proof. done. Qed.
Theorem C41_max_mixed_refuted (sqrt : Qc → Qc) :
  run_acc sqrt Max [VInt 1; VFloat (Qc_of_Z 2)] = Err OtherError.
Proof. done. Qed.

(** Proved: sum, product, average, standard deviation of ints and floats; the standard deviation
    of a single value is 0.0.  [sqrt] is the square root of the library. *)
Theorem C41_sum_partial (sqrt : Qc → Qc) l qs : numerals l qs →
  ∃ s, run_acc sqrt Sum l = Ok (VFloat s) ∧ (this s == qsum (map this qs))%Q.
Proof. exact (run_sum sqrt l qs). Qed.
Theorem C41_product_partial (sqrt : Qc → Qc) l qs : numerals l qs →
  ∃ s, run_acc sqrt Product l = Ok (VFloat s) ∧ (this s == qprod (map this qs))%Q.
Proof. exact (run_product sqrt l qs). Qed.
Theorem C41_average_partial (sqrt : Qc → Qc) l qs : l ≠ [] → numerals l qs →
  ∃ s, run_acc sqrt Average l = Ok (VFloat s) ∧ (this s == qmean (map this qs))%Q.
Proof. exact (run_average sqrt l qs). Qed.
Theorem C41_stdev_partial (sqrt : Qc → Qc) l qs : numerals l qs →
  ((length l <= 1)%nat → run_acc sqrt StandardDeviation l = Ok (VFloat 0%Qc)) ∧
  ((2 <= length l)%nat → ∃ w, run_acc sqrt StandardDeviation l = Ok (VFloat (sqrt w)) ∧
    (this w == qvar (map this qs))%Q).
Proof. exact (run_stdev sqrt l qs). Qed.
(** Minimum and maximum of values of one type. *)
Theorem C41_max_partial (sqrt : Qc → Qc) l k : l ≠ [] →
  Forall (λ v, native v = true ∧ kind_of v = k) l →
  ∃ m, run_acc sqrt Max l = Ok m ∧ m ∈ l ∧ ∀ x, x ∈ l → at_most x m.
Proof. exact (run_max sqrt l k). Qed.
Theorem C41_min_partial (sqrt : Qc → Qc) l k : l ≠ [] →
  Forall (λ v, native v = true ∧ kind_of v = k) l →
  ∃ m, run_acc sqrt Min l = Ok m ∧ m ∈ l ∧ ∀ x, x ∈ l → at_most m x.
Proof. exact (run_min sqrt l k). Qed.

Example C41_example (sqrt : Qc → Qc) :
  let l := [VInt 4; VInt 7; VInt 4; VInt 1] in
  numerals l [Qc_of_Z 4; Qc_of_Z 7; Qc_of_Z 4; Qc_of_Z 1] ∧
  Forall (λ v, native v = true ∧ kind_of v = kind_of (VInt 0)) l ∧
  run_acc sqrt Sum l = Ok (VFloat (Qc_of_Z 16)) ∧ run_acc sqrt Product l = Ok (VFloat (Qc_of_Z 112)) ∧
  run_acc sqrt Average l = Ok (VFloat (Qc_of_Z 4)) ∧ run_acc sqrt Max l = Ok (VInt 7) ∧
  run_acc sqrt Min l = Ok (VInt 1) ∧ run_acc sqrt CountUnique l = Ok (VInt 3) ∧
  run_acc sqrt StandardDeviation l = Ok (VFloat (sqrt (Qc_of_Z 6))) ∧
  run_acc sqrt Max [VStr "abc"; VStr "b"; VStr "B"] = Ok (VStr "b").
Proof.
  split; [repeat constructor|]. split; [repeat constructor|]. split_and!; compute_value.
Qed.
Print Assumptions C41_count.
Print Assumptions C41_first.
Print Assumptions C41_last.
Print Assumptions C41_count_unique.
Print Assumptions C41_sum_partial.
Print Assumptions C41_product_partial.
Print Assumptions C41_average_partial.
Print Assumptions C41_stdev_partial.
Print Assumptions C41_max_partial.
Print Assumptions C41_min_partial.

(** ** C42
    Full statement: the median of a non-empty list of numbers is the mean of its middle elements.
    False: the number of *distinct* values decides whether two elements are averaged. *)
Theorem C42_median_refuted (sqrt : Qc → Qc) :
  (** the median is 1 *)
  run_acc sqrt Median [VInt 1; VInt 1; VInt 1; VInt 2] = Err OtherError ∧
  (** the median is 1.5 *)
  run_acc sqrt Median [VInt 1; VInt 1; VInt 2; VInt 3] = Ok (VInt 2) ∧
  (** the median is 2 *)
  run_acc sqrt Median [VInt 1; VInt 2; VInt 2] = Ok (VFloat (Qc_of_Z 3 / Qc_of_Z 2)%Qc).
Proof. split_and!; compute_value. Qed.

(** Proved for lists of ints and for lists of floats: exactly when the median is right.  [a] and
    [b] are the middle elements: the result is their mean iff "an even number of distinct values"
    and "[a] and [b] differ" are both true or both false.  In particular it is right if no value
    occurs twice.  Missing: lists of both ints and floats, where 1 and 1.0 are two keys. *)
Theorem C42_median_partial (sqrt : Qc → Qc) l : l ≠ [] →
  ((∀ v, v ∈ l → ∃ z, v = VInt z) ∨ (∀ v, v ∈ l → ∃ q, v = VFloat q)) →
  ∃ a b, middle_two (map (λ v, this (default (Qc_of_Z 0) (numeral v))) l) a b ∧
    ((∃ v q, run_acc sqrt Median l = Ok v ∧ numeral v = Some q ∧ (this q == (a + b) / 2)%Q) ↔
     (Nat.even (length (distinct l)) = true ↔ ~ (a == b)%Q)).
Proof. exact (median_run sqrt l). Qed.
Example C42_median_example (sqrt : Qc → Qc) :
  run_acc sqrt Median [VInt 3; VInt 1; VInt 10; VInt 2] = Ok (VFloat (Qc_of_Z 5 / Qc_of_Z 2)%Qc) ∧
  run_acc sqrt Median [VInt 3; VInt 1; VInt 3; VInt 4; VInt 3] = Ok (VInt 3).
Proof. split_and!; compute_value. Qed.

(** The mode.  Full statement: the result is a most frequent value.  False: texts come after all
    other values. *)
Theorem C42_mode_refuted (sqrt : Qc → Qc) :
  run_acc sqrt Mode [VStr "a"; VStr "a"; VInt 1] = Ok (VInt 1) ∧ ¬ is_mode (VInt 1) [VStr "a"; VStr "a"; VInt 1].
Proof.
  split; [by vm_compute|]. intros [_ H]. specialize (H (VStr "a")). vm_compute in H. lia.
Qed.
(** Proved: it is a most frequent value among those which are not text, if there are any. *)
Theorem C42_mode_partial (sqrt : Qc → Qc) l : l ≠ [] →
  ∃ m, run_acc sqrt Mode l = Ok m ∧
    is_mode m (if existsb (λ v, negb (is_text v)) l then filter (λ v, is_text v = false) l else l).
Proof. exact (mode_run sqrt l). Qed.
Example C42_mode_example (sqrt : Qc → Qc) :
  run_acc sqrt Mode [VInt 3; VInt 1; VNone; VInt 1] = Ok (VInt 1) ∧
  run_acc sqrt Mode [VStr "a"; VStr "b"; VStr "b"] = Ok (VStr "b").
Proof. by vm_compute. Qed.
Print Assumptions C42_median_refuted.
Print Assumptions C42_median_partial.
Print Assumptions C42_mode_refuted.
Print Assumptions C42_mode_partial.
