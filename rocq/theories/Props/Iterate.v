(** C107: what nimlite yields of the pages of a column (iterators, items, kinds), and read_page.

    [native_ok] (Spec/Iterate.v) says that the values of a page have the kind of its array and that the counts of an object page are
    right; [column_cells] are the values of all pages; [read_as k]: all values up to the first page with a value that is not of kind
    [k], and a ValueError there.

    Full claim: iterating a column as values of a kind yields all its values, or fails if there is a value of another kind; the item
    of a position is the value there; the kinds are counted exactly; read_page gives the values of the page. *)
From Coq Require Import String.
From Verif.Spec Require Import Iterate Npy ObjectPage.
From Verif.Model Require Import Hdf5 Iterate.
From Verif.Proof Require Import PyIso IterateProofs.
Local Open Scope list_scope.
Local Open Scope Z_scope.

(** For the examples: a library whose floats are all 1.5. *)
Definition lib_iterate : py_lib := {|
  iso_date := iso37_date; iso_datetime := iso37_datetime; iso_time := iso37_time;
  float_read := λ s, None; float_show := λ x, bytes_of "1.5"; float_format := λ k x, bytes_of "1.5";
  float_int := λ x, Ok 1; float_is_int := λ n x, false; float_of_int := λ n, Ok 15; odd_micro := λ s, Ok 0;
  show := λ v, bytes_of "?" |}.

(** ** Objects: every value, in order *)
Theorem C107_objects : ∀ pages, iterate_column None pages = (column_cells pages, None).
Proof. exact object_column. Qed.
Print Assumptions C107_objects.

(** ** Bools, ints, floats and texts, where no page is empty *)
Theorem C107_typed_partial : ∀ k pages,
  k ∈ [KBool; KInt; KFloat; KStr] → Forall native_ok pages → Forall (λ p, page_cells p ≠ []) pages →
  read_as k pages (iterate_column (Some k) pages).
Proof. exact typed_column. Qed.
Print Assumptions C107_typed_partial.

Example C107_typed_ex :
  let a := NativePage AInt32 [CInt 1; CInt 2] [] in
  let b := NativePage AObject [CInt 3] [(KInt, 1)] in
  let c := NativePage AObject [CInt 4; CNone] [(KInt, 1); (KNone, 1)] in
  Forall native_ok [a; b] ∧
  iterate_column (Some KInt) [a; b] = ([CInt 1; CInt 2; CInt 3], None) ∧
  iterate_column (Some KInt) [a; c; b] = ([CInt 1; CInt 2], Some ValueError) ∧
  iterate_column None [a; c; b] = ([CInt 1; CInt 2; CInt 4; CNone; CInt 3], None).
Proof.
  split; [|by vm_compute]. constructor; [repeat constructor|]. constructor; [|constructor].
  unfold native_ok; cbn. split; [apply NoDup_singleton|].
  intros k n. split; [intros [= -> ->]%elem_of_list_singleton; done|].
  intros [H ->]. revert H. destruct k; cbn; intros; try lia; by apply elem_of_list_singleton.
Qed.

(** An empty page of another type is refused, although there is no value of another kind; as dates it is accepted. *)
Theorem C107_typed_refuted :
  let a := NativePage AInt64 [CInt 1] [] in
  let b := NativePage AFloat64 [] [] in
  Forall native_ok [a; b] ∧ iterate_column (Some KInt) [a; b] = ([CInt 1], Some ValueError) ∧
  iterate_column (Some KInt) [a] = ([CInt 1], None).
Proof. split; [repeat constructor|by vm_compute]. Qed.
Print Assumptions C107_typed_refuted.

(** ** Dates and datetimes, also with empty pages *)
Theorem C107_dates : ∀ k pages,
  k ∈ [KDate; KDateTime] → Forall native_ok pages → read_as k pages (iterate_dates k pages).
Proof. exact date_column. Qed.
Print Assumptions C107_dates.

Example C107_dates_ex :
  let d := CDate (Ymd 2020 2 29) in
  let a := NativePage ADate [d] [] in
  let b := NativePage AInt64 [] [] in
  let c := NativePage ADateTime [CDateTime (Ymd 2020 2 29) 0] [] in
  iterate_dates KDate [a; b; a] = ([d; d], None) ∧ iterate_dates KDate [a; c] = ([d], Some ValueError).
Proof. by vm_compute. Qed.

(** The iterator by kind takes any kind, but of others than dates it yields nothing and does not fail. *)
Theorem C107_kinds_refuted :
  let t := NativePage AObject [CTime 1; CTime 2] [(KTime, 2)] in
  let i := NativePage AInt64 [CInt 1] [] in
  native_ok t ∧ native_ok i ∧ iterate_dates KTime [t] = ([], None) ∧ iterate_dates KInt [i] = ([], None).
Proof.
  split; [|split; [repeat constructor|by vm_compute]]. unfold native_ok; cbn. split; [apply NoDup_singleton|].
  intros k n. split; [intros [= -> ->]%elem_of_list_singleton; done|].
  intros [H ->]. revert H. destruct k; cbn; intros; try lia; by apply elem_of_list_singleton.
Qed.
Print Assumptions C107_kinds_refuted.

(** ** The item of a position *)
Theorem C107_item : ∀ pages i, 0 <= i →
  column_item pages i 0 = match column_cells pages !! Z.to_nat i with Some v => Ok v | None => Err IndexError end.
Proof. intros pages i H. rewrite <- (Z.sub_0_r i) at 2. exact (item_from pages i 0 H). Qed.
Print Assumptions C107_item.

Theorem C107_item_negative : ∀ pages i, i < 0 → column_item pages i 0 = Err IndexError.
Proof. exact item_negative. Qed.
Print Assumptions C107_item_negative.

Example C107_item_ex :
  let a := NativePage AInt32 [CInt 1; CInt 2] [] in
  let b := NativePage AText [] [] in
  let c := NativePage AObject [CInt 4; CNone] [(KInt, 1); (KNone, 1)] in
  column_item [b; a; b; c] 2 0 = Ok (CInt 4) ∧ column_item [b; a; b; c] 4 0 = Err IndexError.
Proof. by vm_compute. Qed.

(** ** The kinds of a column *)
Theorem C107_types : ∀ pages k, Forall native_ok pages →
  count_of (get_column_types pages) k = kind_count (column_cells pages) k.
Proof. exact column_types_ok. Qed.
Print Assumptions C107_types.

Example C107_types_ex :
  let a := NativePage AInt32 [CInt 1; CInt 2] [] in
  let c := NativePage AObject [CInt 4; CNone] [(KInt, 1); (KNone, 1)] in
  get_column_types [a; c; a] = [(KInt, 5); (KNone, 1)].
Proof. by vm_compute. Qed.

(** ** read_page gives the values of the page if it is not empty and, for objects, if one is None, a date, a time or a datetime, or
    all are of one kind. *)
Theorem C107_read_page_partial : ∀ lib p,
  page_cells p ≠ [] →
  page_array p ≠ AObject ∨ (∃ v, v ∈ page_cells p ∧ kind_of v ∈ [KNone; KDate; KTime; KDateTime])
    ∨ (∃ k, Forall (λ v, kind_of v = k) (page_cells p)) →
  read_page lib p = Ok (page_cells p).
Proof. exact read_page_ok. Qed.
Print Assumptions C107_read_page_partial.

Example C107_read_page_ex :
  read_page lib_iterate (NativePage AObject [CInt 1; CStr (bytes_of "a"); CNone] [(KInt, 1); (KStr, 1); (KNone, 1)])
    = Ok [CInt 1; CStr (bytes_of "a"); CNone].
Proof. by vm_compute. Qed.

(** Without them ints and bools beside texts become texts, bools beside ints ints; an empty array is read out of bounds. *)
Theorem C107_read_page_refuted :
  read_page lib_iterate (NativePage AObject [CInt 1; CStr (bytes_of "a"); CBool true] [(KInt, 1); (KStr, 1); (KBool, 1)])
    = Ok [CStr (bytes_of "1"); CStr (bytes_of "a"); CStr (bytes_of "True")] ∧
  read_page lib_iterate (NativePage AObject [CBool true; CInt 2] [(KBool, 1); (KInt, 1)]) = Ok [CInt 1; CInt 2] ∧
  read_page lib_iterate (NativePage AInt64 [] []) = Err IndexError.
Proof. by vm_compute. Qed.
Print Assumptions C107_read_page_refuted.
