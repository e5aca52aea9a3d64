(** C59, imputation.

    [run .. empty_heap os]: the tables t0, t1, ... after the program [os]; tk is the result of the
    imputation of ti.  [contents (tab_view h i)]: names and values of ti.  [missing] is the set of
    values which stand for none, [is_missing] tells whether a value is (by [==]) one of them. *)
From Coq Require Qround.
From stdpp Require Import strings.
From Verif.Model Require Import Imputation Nearest Dtype.
From Verif.Proof Require Import ImputationProofs ImputeStats ImputeTables ImputeFinal NearestFinal HeapProofs HeapFinal.
Local Open Scope string_scope.
Local Open Scope list_scope.
Local Open Scope Z_scope.

(** ** C59
    Full statement: every method leaves the cells which are not missing and the input table as
    they are; carry forward fills each missing cell with the closest previous known value of its
    column.

    *** carry forward
    False if the column starts with a missing value which is of the type of the others: what is
    stored for None depends on the type.  With bools it is False, with text 'None', and with ints
    the method fails.  (Here -1 and '' and True are the missing values.) *)
Definition cells : heap string cell ctype := run cty 2 np_cast np_array_of ceqb empty_heap
  [OSet 0 "b" [CBool true; CBool false]; OSet 0 "s" [CStr ""; CStr "abc"];
   OSet 0 "i" [CInt (-1); CInt 4]; OSet 0 "m" [CNone; CInt 4; CNone]].
Notation carry := (carry_forward cty CNone 2 np_cast np_array_of ceqb).
Theorem C59_carry_refuted :
  dget (contents (tab_view (carry [CBool true] cells 0 1 ["b"]).1 1)) "b" = Some [CBool false; CBool false] ∧
  dget (contents (tab_view (carry [CStr ""] cells 0 1 ["s"]).1 1)) "s" = Some [CStr "Non"; CStr "abc"] ∧
  (carry [CInt (-1)] cells 0 1 ["i"]).2 = Err TypeError.
Proof. by vm_compute. Qed.
(** An unknown target is refused before anything is done. *)
Theorem C59_unknown {N A T K} `{EqDecision N, EqDecision T, EqDecision K} (ty : A → T) (key : A → K) (none : A) ps cast np_array eqb missing
    is_num num of_num other comparable me (h : heap N A T) i k targets n :
  n ∈ targets → n ∉ (tabs h i).*1 →
  carry_forward ty none ps cast np_array eqb missing h i k targets = (h, Err ValueError) ∧
  stats_method ty key none ps cast np_array eqb missing is_num num of_num other comparable me h i k targets = (h, Err ValueError).
Proof. exact (unknown_targets ty key none ps cast np_array eqb missing is_num num of_num other comparable me h i k targets n). Qed.
(** Proved for columns which can hold None or start with a known value ([fits], see the next
    theorem): the other tables, the input among them, stay; the columns which are not targets are
    copied; in the targets every missing value is replaced by the closest known one before it,
    None if there is none. *)
Theorem C59_carry_forward_partial {N A T} `{EqDecision N, EqDecision T} (ty : A → T) (none : A) ps cast np_array eqb missing os i k targets :
  0 < ps → i ≠ k →
  let h := run ty ps cast np_array eqb (empty_heap (N := N)) os in
  (∀ n, n ∈ targets → ∃ a, dget (tabs h i) n = Some a ∧ fits none cast eqb missing (col_view h a)) →
  ∃ h', carry_forward ty none ps cast np_array eqb missing h i k targets = (h', Ok ()) ∧
    (∀ x, x ≠ k → tab_view h' x = tab_view h x) ∧
    (contents (tab_view h' k)).*1 = (contents (tab_view h i)).*1 ∧
    ∀ n xs, dget (contents (tab_view h i)) n = Some xs →
      ∃ ys, dget (contents (tab_view h' k)) n = Some ys ∧
        if bool_decide (n ∈ targets) then carried (is_missing eqb missing) none xs ys else ys = xs.
Proof. exact (program_carry ty none ps cast np_array eqb missing os i k targets). Qed.
Theorem C59_carry_fits missing (c : column cell ctype) :
  (∀ x, list.head (col_iter c) = Some x → is_missing ceqb missing x = false) ∨ unify (map (λ p, dtype_of (pdata p)) c) = DObj →
  fits CNone np_cast ceqb missing c.
Proof. exact (fits_cells missing c). Qed.
Example C59_carry_example :
  (∀ n, n ∈ ["m"; "s"] → ∃ a, dget (tabs cells 0) n = Some a ∧ fits CNone np_cast ceqb [CNone] (col_view cells a)) ∧
  dget (contents (tab_view (carry [CNone] cells 0 1 ["m"; "s"]).1 1)) "m" = Some [CNone; CInt 4; CInt 4] ∧
  dget (contents (tab_view (carry [CNone] cells 0 1 ["m"; "s"]).1 0)) "m" = Some [CNone; CInt 4; CNone].
Proof.
  split; [|by vm_compute]. intros n [->|[->|Hn]%elem_of_cons]%elem_of_cons; [exists 3%nat|exists 1%nat|by apply elem_of_nil in Hn].
  - split; [by vm_compute|]. apply fits_cells. right. by vm_compute.
  - split; [by vm_compute|]. apply fits_cells. left. vm_compute. by intros ? [= <-].
Qed.
Print Assumptions C59_carry_refuted.
Print Assumptions C59_unknown.
Print Assumptions C59_carry_forward_partial.
Print Assumptions C59_carry_fits.

(** *** mean and mode
    The input table is changed as well: [replace] is called on its columns (imputation.py 153),
    and the result has these Column objects, so that later changes of the one show in the other.
    (Values: None and ints.) *)
Definition ity (x : option Z) : bool := bool_decide (is_Some x).
Definition inum (x : option Z) : Q := inject_Z (default 0 x).
Definition ieq (x y : option Z) : bool := bool_decide (x = y).
Notation istats ms := (stats_method ity id None 2 (λ _ v, Ok v) id ieq ms id inum (λ q, Some (Qround.Qfloor q)) (λ _ _, Err KeyError) (λ _, true)).
Notation istep := (step ity 2 (λ _ v, Ok v) id ieq).
Definition gaps (xs : list (option Z)) : heap string (option Z) bool := (istep empty_heap (OSet 0 "a" xs)).1.
Theorem C59_input_refuted :
  let r := istats [None] Mean (gaps [Some 1; None; Some 5]) 0%nat 1%nat ["a"] in
  r.2 = Ok () ∧
  contents (tab_view r.1 1) = [("a", [Some 1; Some 3; Some 5])] ∧
  contents (tab_view r.1 0) = [("a", [Some 1; Some 3; Some 5])] ∧
  contents (tab_view (istep r.1 (OCol 1 "a" (SetItem 0 (Some 7)))).1 0) = [("a", [Some 7; Some 3; Some 5])].
Proof. by vm_compute. Qed.
(** If the missing value is the smallest number of the column the method fails: it is still in the
    histogram, with count 0, and the first round of the loop divides by the count so far
    (utils.py 274). *)
Theorem C59_smallest_refuted : (istats [Some (-1)] Mean (gaps [Some 1; Some (-1); Some 5]) 0%nat 1%nat ["a"]).2 = Err ZeroDivisionError.
Proof. by vm_compute. Qed.
(** Proved for tables with different Column objects, if a value is found for every target and can
    be stored ([value_fits]): the result has the columns of the input; columns which are not
    targets keep their pages, here and in all tables; in a target, exactly the missing values are
    replaced, by one value. *)
Theorem C59_stats_partial {N A T K} `{EqDecision N, EqDecision T, EqDecision K} (ty : A → T) (key : A → K) none ps cast np_array eqb missing
    is_num num of_num other comparable me os i k targets :
  np_array missing = missing → i ≠ k →
  let h := run ty ps cast np_array eqb (empty_heap (N := N)) os in
  NoDup (tabs h i).*2 →
  (∀ n, n ∈ targets → ∃ a v, dget (tabs h i) n = Some a ∧
     value_fits ty key none cast eqb missing is_num num of_num other comparable me (col_view h a) v) →
  ∃ h', stats_method ty key none ps cast np_array eqb missing is_num num of_num other comparable me h i k targets = (h', Ok ()) ∧
    tabs h' k ≡ₚ tabs h i ∧ (∀ x, x ≠ k → tabs h' x = tabs h x) ∧
    (∀ b, (b < length (hcols h))%nat → (∀ n, (n, b) ∈ tabs h i → n ∉ targets) → pages_of h' b = pages_of h b) ∧
    ∀ n a, (n, a) ∈ tabs h i → n ∈ targets → ∃ v,
      new_value ty key none missing is_num num of_num other comparable me (col_view h a) = Ok v ∧
      col_iter (col_view h' a) = filled_with (is_missing eqb missing) v (col_iter (col_view h a)).
Proof. exact (program_stats ty key none ps cast np_array eqb missing is_num num of_num other comparable me os i k targets). Qed.
(** The value, for a column most of whose known values are numbers of one type t: mean of these
    numbers, or the most frequent of them, the smallest one if there are several.  Not proved
    (and false, see above) if a missing value of type t is not above some known number. *)
Theorem C59_value_partial {A T K} `{EqDecision T, EqDecision K} (ty : A → T) (key : A → K) none eqb missing is_num num of_num other comparable
    me (c : column A T) t :
  (∀ x y, eqb x y = true ↔ key x = key y) →
  (∀ x y, x ∈ col_iter c → y ∈ col_iter c → key x = key y → ty x = ty y) →
  let ks t := filter (λ x, ty x = t) (known (is_missing eqb missing) (col_iter c)) in
  (∀ t', t' ≠ t → (length (ks t') < length (ks t))%nat) → (0 < length (ks t))%nat →
  is_num t = true →
  (∀ x y, x ∈ col_iter c → y ∈ col_iter c → ty x = t → ty y = t → (num (key x) == num (key y))%Q → key x = key y) →
  (∀ x, x ∈ col_iter c → ty x = t → is_missing eqb missing x = true → ∃ y, y ∈ ks t ∧ (num (key y) < num (key x))%Q) →
  let ns := map (λ x, num (key x)) (ks t) in
  ∃ q, new_value ty key none missing is_num num of_num other comparable me c = Ok (of_num q) ∧
    match me with
    | Mean => (q == qmean ns)%Q
    | Mode => q ∈ ns ∧ ∀ x, x ∈ ns → (qcount x ns <= qcount q ns)%nat ∧ (qcount x ns = qcount q ns → (q <= x)%Q)
    end.
Proof. exact (λ Heqb, new_value_spec ty key none eqb missing is_num num of_num other comparable Heqb me c t). Qed.
Example C59_value_example :
  let xs := [Some 1; None; Some 5; Some 9; None; Some 1; Some 9] in
  let c := [MkPage (T := bool) (take 4 xs) []; MkPage (drop 4 xs) []] in
  let ks t := filter (λ x, ity x = t) (known (is_missing ieq [None; Some 9]) (col_iter c)) in
  length (ks true) = 3%nat ∧ length (ks false) = 0%nat ∧
  (∀ x, x ∈ col_iter c → ity x = true → is_missing ieq [None; Some 9] x = true → ∃ y, y ∈ ks true ∧ (inum y < inum x)%Q) ∧
  new_value ity id None [None; Some 9] id inum (λ q, Some (Qround.Qfloor q)) (λ _ _, Err KeyError) (λ _, true) Mean c = Ok (Some 2) ∧
  new_value ity id None [None; Some 9] id inum (λ q, Some (Qround.Qfloor q)) (λ _ _, Err KeyError) (λ _, true) Mode c = Ok (Some 1).
Proof.
  split_and!; try by vm_compute. intros x Hx Ht Hm. exists (Some 1). split; [vm_compute; left|].
  assert (Hx9 : x = None ∨ x = Some 9).
  { unfold is_missing, ieq in Hm. apply existsb_exists in Hm as (m & [<-|[<-|[]]] & Hm); apply bool_decide_eq_true_1 in Hm; [by left|by right]. }
  destruct Hx9 as [->| ->]; [by vm_compute in Ht|]. by vm_compute.
Qed.
Example C59_stats_example :
  (∀ n, n ∈ ["a"] → ∃ a v, dget (tabs (gaps [Some 1; None; Some 5]) 0) n = Some a ∧
     value_fits ity id None (λ _ v, Ok v) ieq [None] id inum (λ q, Some (Qround.Qfloor q)) (λ _ _, Err KeyError) (λ _, true) Mode
       (col_view (gaps [Some 1; None; Some 5]) a) v) ∧
  contents (tab_view (istats [None] Mode (gaps [Some 1; None; Some 5]) 0%nat 1%nat ["a"]).1 1) = [("a", [Some 1; Some 1; Some 5])].
Proof. split; [|by vm_compute]. intros n ->%elem_of_list_singleton. exists 0%nat, (Some 1). split; [by vm_compute|]. split; [by vm_compute|done]. Qed.
Print Assumptions C59_input_refuted.
Print Assumptions C59_smallest_refuted.
Print Assumptions C59_stats_partial.
Print Assumptions C59_value_partial.

(** *** nearest neighbour
    Tables as lists of columns, columns as lists of pages; [leb] is a total order of the values. *)
Definition oleb (a b : option Z) : bool :=
  match a, b with None, _ => true | Some x, Some y => x <=? y | Some _, None => false end.
(** Proved for every table whose columns have pages of the same lengths, targets given in the
    order of the table: the method ends, names, page lengths and the columns which are not
    targets stay, and so do known values; missing values are replaced by known values of the same
    column or stay. *)
Theorem C59_nearest_partial {N A} `{EqDecision N, EqDecision A} (leb : A → A → bool) (missing : list A)
    (T : list (N * list (list A))) (sources targets : list N) (lens : list nat) :
  (∀ x y, leb x y = true ∨ leb y x = true) → (∀ x y z, leb x y = true → leb y z = true → leb x z = true) →
  (∀ x y, leb x y = true → leb y x = true → x = y) →
  NoDup T.*1 → Forall (λ c, map length c.2 = lens) T →
  sources ≠ [] → (∀ n, n ∈ sources → n ∈ T.*1) → targets ≠ [] → targets = filter (λ n, n ∈ targets) T.*1 →
  ∃ T', nearest leb missing T sources targets = Some T' ∧ T'.*1 = T.*1 ∧
    ∀ n c, dget T n = Some c → ∃ c', dget T' n = Some c' ∧
      if decide (n ∈ targets) then map length c' = map length c ∧ filled_from (λ x, bool_decide (x ∈ missing)) (concat c) (concat c')
      else c' = c.
Proof. exact (table_filled leb missing T sources targets lens). Qed.
(** With the targets in another order the columns are mixed up: *)
Theorem C59_targets_refuted :
  nearest oleb [None] [(1, [[Some 1; Some 2]]); (2, [[Some 10; None]]); (3, [[Some 7; Some 8]])] [1] [3; 2] =
  Some [(1, [[Some 1; Some 2]]); (2, [[Some 7; Some 8]]); (3, [[Some 10; Some 10]])].
Proof. by vm_compute. Qed.
(** Values may stay missing: if the rows with known values miss a value of the source which the
    row has, their distance is infinite and the method gives up; and with several missing values a
    page may be filled, left and loaded again, so that what was filled in is lost. *)
Theorem C59_infinite_refuted :
  nearest oleb [None] [(1, [[Some 1; None]]); (2, [[None; Some 5]])] [1] [2] = Some [(1, [[Some 1; None]]); (2, [[None; Some 5]])].
Proof. by vm_compute. Qed.
Theorem C59_reload_refuted :
  nearest oleb [None; Some (-1)] [(1, [[Some 1; Some 2; Some 3]; [Some 4]]); (2, [[None; Some (-1); Some 5]; [Some (-1)]])] [1] [2] =
  Some [(1, [[Some 1; Some 2; Some 3]; [Some 4]]); (2, [[Some 5; Some (-1); Some 5]; [Some 5]])].
Proof. by vm_compute. Qed.
(** Proved: apart from these, every missing value is replaced by that of the nearest row
    ([filled_nearest]), among several the first.  Given that for every missing value there is a
    row with a known one at a finite distance, and either there is one page, or one target and one
    missing value. *)
Theorem C59_neighbour_partial {N A} `{EqDecision N, EqDecision A} (leb : A → A → bool) (missing : list A)
    (T : list (N * list (list A))) (sources targets : list N) (lens : list nat) :
  (∀ x y, leb x y = true ∨ leb y x = true) → (∀ x y z, leb x y = true → leb y z = true → leb x z = true) →
  (∀ x y, leb x y = true → leb y x = true → x = y) →
  NoDup T.*1 → Forall (λ c, map length c.2 = lens) T →
  sources ≠ [] → (∀ n, n ∈ sources → n ∈ T.*1) → targets ≠ [] → targets = filter (λ n, n ∈ targets) T.*1 →
  let cols := map (λ n, concat (default [] (dget T n))) sources in
  (∀ n c i x, n ∈ targets → dget T n = Some c → concat c !! i = Some x → x ∈ missing →
     ∃ k w d, concat c !! k = Some w ∧ w ∉ missing ∧ distance leb missing cols i k = Some d) →
  length lens = 1%nat ∨ length missing = 1%nat ∧ length targets = 1%nat →
  ∃ T', nearest leb missing T sources targets = Some T' ∧ T'.*1 = T.*1 ∧
    ∀ n c, dget T n = Some c → ∃ c', dget T' n = Some c' ∧
      if decide (n ∈ targets) then map length c' = map length c ∧ filled_nearest leb missing cols (concat c) (concat c')
      else c' = c.
Proof. exact (table_nearest leb missing T sources targets lens). Qed.
Example C59_neighbour_example :
  let T := [(1, [[Some 1; Some 2]; [Some 3; Some 9]]); (2, [[Some 10; None]; [None; Some 30]])] in
  Forall (λ c, map length c.2 = [2; 2]%nat) T ∧ [2] = filter (λ n, n ∈ [2]) T.*1 ∧
  (∀ i k, (i < 4)%nat → (k < 4)%nat → is_Some (distance oleb [None] [[Some 1; Some 2; Some 3; Some 9]] i k)) ∧
  nearest oleb [None] T [1] [2] = Some [(1, [[Some 1; Some 2]; [Some 3; Some 9]]); (2, [[Some 10; Some 10]; [Some 10; Some 30]])].
Proof.
  cbv zeta. split_and!; [repeat constructor|done| |by vm_compute]. intros i k Hi Hk.
  do 4 (destruct i as [|i]; [do 4 (destruct k as [|k]; [by vm_compute; eexists|]); lia|]); lia.
Qed.
Print Assumptions C59_nearest_partial.
Print Assumptions C59_targets_refuted.
Print Assumptions C59_infinite_refuted.
Print Assumptions C59_reload_refuted.
Print Assumptions C59_neighbour_partial.
