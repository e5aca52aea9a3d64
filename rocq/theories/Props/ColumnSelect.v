(** C57, column selection.

    [column_select .. t cols]: names and values of the two tables, (passed, failed).  [lens]: the
    page lengths of every column of t.  [ds]: what is wanted, by the requests [cols]; [vals t d]:
    the values of the column wanted as d.  [conv k v]: v as a value of type k, or an exception. *)
From Coq Require Import Sorted.
From stdpp Require Import strings pretty.
From Verif.Spec Require Import Select.
From Verif.Model Require Import ColumnSelect.
From Verif.Proof Require Import SelectPage SelectTable SelectFinal.
Local Open Scope string_scope.
Local Open Scope list_scope.
Local Open Scope Z_scope.

(** ** C57
    Full statement: each row is either in the passed table, with all wanted values converted, or in
    the failed table, with its values and the reason; never in both, never in neither; in order.

    For the examples: None, ints and text; the text of an int can be converted to it. *)
Inductive val := VN | VI (z : Z) | VS (s : string).
Global Instance val_eq_dec : EqDecision val. Proof. solve_decision. Defined.
Inductive knd := KN | KI | KS.
Global Instance knd_eq_dec : EqDecision knd. Proof. solve_decision. Defined.
Definition kof (v : val) : knd := match v with VN => KN | VI _ => KI | VS _ => KS end.
Definition vconv (k : knd) (v : val) : res val :=
  match k, v with
  | KI, VI z => Ok (VI z)
  | KI, VS s => if decide (s = "1") then Ok (VI 1) else if decide (s = "2") then Ok (VI 2) else Err ValueError
  | KS, VS s => Ok (VS s)
  | KS, VI z => Ok (VS (pretty z))
  | _, _ => Err ValueError
  end.
Definition kname (k : knd) : string := match k with KN => "NoneType" | KI => "int" | KS => "str" end.
Definition out (d : desired (K := knd)) : string := ("'" +:+ d_name d +:+ "[" +:+ kname (d_type d) +:+ "]'")%string.
Definition no_text (d : desired (K := knd)) : val := VS ("'" +:+ d_orig d +:+ "' cannot be empty string in " +:+ out d +:+ ".")%string.
Definition no_none (d : desired (K := knd)) : val := VS (out d +:+ " cannot be empty.")%string.
Definition show (v : val) : string := match v with VN => "None" | VI z => pretty z | VS s => s end.
Definition no_value (d : desired (K := knd)) (v : val) : val :=
  VS ("Cannot cast '" +:+ show v +:+ "' from '" +:+ d_orig d +:+ "[" +:+ kname (kof v) +:+ "]' to " +:+ out d +:+ ".")%string.
Notation select := (column_select kof KN KS VN (VS "") vconv no_text no_none no_value 4 2).
Notation ints l := (Page (Some KI) (VI <$> l)).
Notation texts l := (Page (Some KS) (VS <$> l)).
Notation int n := (Request n None (Some KI) false).
Notation str n := (Request n None (Some KS) false).

(** *** Rows in neither table
    A page which has the wanted type is returned as it is (pagecasters.nim 139-143) and the mask is
    not set; then its rows count as unused.  This needs a column which has to be looked at because
    of another page.  Here 1 and 2 are lost. *)
Theorem C57_lost_rows_refuted :
  select [("a", [ints [1; 2]; texts ["1"; "x"]])] [int "a"] =
    Ok ([("a", [VI 1])], [("reject_reason", [VS "Cannot cast 'x' from 'a[str]' to 'a[int]'."]); ("a", [VS "x"])]).
Proof. by vm_compute. Qed.
(** *** Rows put together wrongly
    Only the number of pages and of rows is compared (collectinfo.nim 152-165).  With pages of other
    lengths the rows are not those of the table: here the second row is ("x", "q"), the failed row
    is ("x", "r").  Or an index is not there. *)
Theorem C57_layout_refuted :
  select [("a", [texts ["1"]; texts ["x"; "2"]]); ("b", [texts ["p"; "q"]; texts ["r"]])] [int "a"] =
    Ok ([("a", [VI 1; VI 2])], [("reject_reason", [VS "Cannot cast 'x' from 'a[str]' to 'a[int]'."]); ("a", [VS "x"]); ("b", [VS "r"])]) ∧
  select [("a", [texts ["x"; "1"]; texts ["2"]]); ("b", [texts ["5"]; texts ["6"; "7"]])] [int "a"; str "b"] = Err IndexError.
Proof. by vm_compute. Qed.
(** *** Columns lost
    A repeated name is given a number, but not compared again: the second "a" becomes "a_1" and
    takes the place of the column of this name. *)
Theorem C57_names_refuted :
  select [("a_1", [texts ["p"]]); ("a", [texts ["q"]])] [str "a_1"; str "a"; str "a"] =
    Ok ([("a_1", [VS "q"]); ("a", [VS "q"])], [("reject_reason", []); ("a_1", []); ("a", [])]).
Proof. by vm_compute. Qed.
(** *** Failures: no type given; a page longer than Config.PAGE_SIZE. *)
Theorem C57_fails_refuted :
  select [("a", [ints [1]])] [Request "a" None None true] = Err OtherError ∧
  select [("a", [texts ["1"; "1"; "1"; "1"; "1"]])] [int "a"] = Err OtherError.
Proof. by vm_compute. Qed.

(** *** What holds
    [conv_ok]: None is the only value of its type, and values are converted to their own type
    unchanged.  [table_ok]: there are columns, all with pages of the lengths [lens], at most
    Config.PAGE_SIZE; typed pages have values of their type.  [wishes_ok]: the columns are there,
    types are given and conversions give a value or ValueError.  [all_seen]: no page with rows is
    of the wanted type in all columns, unless one column needs no look at all.  [told_apart]:
    the names, repeated ones with a number.

    Then the two tables have, in order, the rows which pass with the wanted values (spec
    [passed_values]), and the others with all their values and the reason given by the first column
    in the way.  Missing for the full statement: the cases above, where it is false. *)
Theorem C57_select_partial {A K} `{EqDecision A, EqDecision K} (kind : A → K) (knone kstr : K) (none estr : A) (conv : K → A → res A)
    (no_text no_none : desired → A) (no_value : desired → A → A) (ps step : nat) t cols lens :
  let ds := zip_with (as_desired knone) (told_apart [] (map given cols)) cols in
  let n := sum_list lens in
  let value_of := λ k v, ok_of (conv k v) in
  conv_ok kind knone kstr none estr conv → (0 < ps)%nat → (0 < step)%nat → NoDup (told_apart [] (map given cols)) →
  table_ok kind knone ps t lens → wishes_ok kind knone kstr conv t ds → all_seen kind knone kstr t ds lens →
  ∃ reject, unique_name "reject_reason" t.*1 = Some reject ∧ reject ∉ t.*1 ∧
    column_select kind knone kstr none estr conv no_text no_none no_value ps step t cols =
      Ok (map (λ d, (d_name d, passed_values none estr kstr value_of wish_of no_text no_none no_value ds (vals t) n d)) ds,
          (reject, reasons none estr kstr value_of wish_of no_text no_none no_value ds (vals t) n) ::
          map (λ c, (c.1, failed_values none estr kstr value_of wish_of no_text no_none no_value ds (vals t) n (concat (map pg_vals c.2)))) t).
Proof. exact (select_spec kind knone kstr none estr conv no_text no_none no_value ps step t cols lens). Qed.
(** Each row is one of those passing or one of the others, and there are as many values as rows. *)
Theorem C57_divided {A K} `{EqDecision A, EqDecision K} (kstr : K) (none estr : A) (conv : K → A → res A)
    (no_text no_none : desired → A) (no_value : desired → A → A) ds (vs : desired → list A) n xs :
  let value_of := λ k v, ok_of (conv k v) in
  let ps := passing none estr kstr value_of wish_of no_text no_none no_value ds vs n in
  let fs := failing none estr kstr value_of wish_of no_text no_none no_value ds vs n in
  (∀ d, d ∈ ds → length (vs d) = n) → length xs = n →
  ps ++ fs ≡ₚ seq 0 n ∧ StronglySorted lt ps ∧ StronglySorted lt fs ∧
  (∀ d, d ∈ ds → Forall2 (λ i x, ∃ v, vs d !! i = Some v ∧ wanted none estr kstr value_of wish_of no_text no_none no_value d v = inl x)
     ps (passed_values none estr kstr value_of wish_of no_text no_none no_value ds vs n d)) ∧
  Forall2 (λ i x, xs !! i = Some x) fs (failed_values none estr kstr value_of wish_of no_text no_none no_value ds vs n xs) ∧
  Forall2 (λ i r, ∃ ds1 d ds2 v, ds = ds1 ++ d :: ds2 ∧ vs d !! i = Some v ∧
      wanted none estr kstr value_of wish_of no_text no_none no_value d v = inr r ∧
      ∀ d' v', d' ∈ ds1 → vs d' !! i = Some v' → ∃ x, wanted none estr kstr value_of wish_of no_text no_none no_value d' v' = inl x)
    fs (reasons none estr kstr value_of wish_of no_text no_none no_value ds vs n).
Proof. exact (divided kstr none estr conv no_text no_none no_value ds vs n xs). Qed.
(** No page is overlooked if there is one page per column. *)
Theorem C57_one_page {A K} `{EqDecision A, EqDecision K} (kind : A → K) (knone kstr : K) ps t ds L :
  table_ok kind knone ps t [L] → (∀ d, d ∈ ds → d_orig d ∈ t.*1) → ds ≠ [] → all_seen kind knone kstr t ds [L].
Proof. exact (one_page_seen kind knone kstr ps t ds L). Qed.
(** Names: given ones which are different are kept; they are told apart if none of them is
    a numbered one of another. *)
Theorem C57_names names :
  (NoDup names → told_apart [] names = names) ∧
  ((∀ n m k, n ∈ names → m ∈ names → n ≠ (m +:+ "_" +:+ pretty (N.of_nat k))%string) → NoDup (told_apart [] names)).
Proof. exact (conj (told_apart_distinct names) (told_apart_NoDup [] names)). Qed.

(** A table of two pages, one of them of mixed types; an empty text is allowed in "b".  Row 2 fails
    in "a", row 3 in "c"; the column "b" is wanted twice. *)
Definition mixed : table (A := val) (K := knd) :=
  [("a", [texts ["1"; "2"; "x"]; Page None [VI 4; VN]]);
   ("b", [texts ["p"; ""; "q"]; texts ["r"; "s"]]);
   ("reject_reason", [ints [1; 2; 3]; ints [4; 5]])].
Definition wants : list (request (K := knd)) :=
  [int "a"; Request "b" None (Some KS) true; Request "b" (Some "c") (Some KI) true; Request "b" None (Some KS) true].
Example C57_example :
  let ds := zip_with (as_desired KN) (told_apart [] (map given wants)) wants in
  NoDup (told_apart [] (map given wants)) ∧ conv_ok kof KN KS VN (VS "") vconv ∧
  table_ok kof KN 4 mixed [3; 2]%nat ∧ wishes_ok kof KN KS vconv mixed ds ∧ all_seen kof KN KS mixed ds [3; 2]%nat ∧
  select mixed wants =
    Ok ([("a", [VI 2]); ("b", [VS ""]); ("c", [VN]); ("b_1", [VS ""])],
        [("reject_reason_1",
          [VS "Cannot cast 'p' from 'b[str]' to 'c[int]'."; VS "Cannot cast 'x' from 'a[str]' to 'a[int]'.";
           VS "Cannot cast 'r' from 'b[str]' to 'c[int]'."; VS "'a[int]' cannot be empty."]);
         ("a", [VS "1"; VS "x"; VI 4; VN]); ("b", [VS "p"; VS "q"; VS "r"; VS "s"]); ("reject_reason", [VI 1; VI 3; VI 4; VI 5])]).
Proof.
  cbv zeta. split_and!; try by vm_compute.
  - apply (bool_decide_unpack _). by vm_compute.
  - split_and!; [|done|done|].
    + intros v. destruct v; naive_solver.
    + intros [|z|s]; [done|done|done].
  - split_and!; [|done| |].
    + apply (bool_decide_unpack _). by vm_compute.
    + repeat constructor.
    + intros c Hc. unfold mixed in Hc. repeat (apply elem_of_cons in Hc as [->|Hc]); [..|by apply elem_of_nil in Hc];
        (split; [|by vm_compute]); repeat constructor; unfold page_ok; cbn; try done; (split; [done|]); repeat constructor.
  - intros d Hd. cbn in Hd. repeat (apply elem_of_cons in Hd as [->|Hd]); [..|by apply elem_of_nil in Hd];
      (split_and!; [apply (bool_decide_unpack _); by vm_compute|done|]);
      intros [|z|s] e _; cbn; repeat case_decide; naive_solver.
  - intros i L Hi. right. exists (as_desired KN "a" (int "a")). split; [left|]. right.
    destruct i as [|[|i]]; by vm_compute.
Qed.
Print Assumptions C57_lost_rows_refuted.
Print Assumptions C57_layout_refuted.
Print Assumptions C57_names_refuted.
Print Assumptions C57_fails_refuted.
Print Assumptions C57_select_partial.
Print Assumptions C57_divided.
Print Assumptions C57_one_page.
Print Assumptions C57_names.
