(** Pages of any type: files written and read by nimlite. *)
From Coq Require Import String.
From Verif.Model Require Import Npy.
From Verif.Proof Require Import PicklePageProofs NpyProofs.
Local Open Scope string_scope.
Local Open Scope list_scope.
Local Open Scope Z_scope.

(** ** C74: a page is saved as a numpy file of its elements and comes back *)

(** false in general: the fraction of a second of a date with a time is read as a
    thousandth of itself *)
Theorem C74_fraction_refuted checks scalar widen :
  ∃ p p', page_ok p ∧ readNumpy checks scalar (save p) = Ok p' ∧ elements widen p' ≠ elements widen p.
Proof.
  exists (PDateTime [(Ymd 2024 2 29, 500000000)]), (PDateTime [(Ymd 2024 2 29, 500000)]).
  split; [split; [repeat constructor; vm_compute; congruence|done]|].
  split; [by vm_compute|]. vm_compute. congruence.
Qed.
Print Assumptions C74_fraction_refuted.

(** ... and where bounds are checked an empty page of texts cannot be read *)
Theorem C74_empty_refuted scalar :
  ∃ p, page_ok p ∧ readNumpy true scalar (save p) = Err IndexError.
Proof.
  exists (PUnicode 0 [] 1). split; [|by vm_compute].
  split; [done|]. split; [done|]. by exists [].
Qed.
Print Assumptions C74_empty_refuted.

(** What is saved is a numpy file: typed pages, and pages of objects of one kind
    that is neither None nor a time, as an array with exactly their elements. *)
Theorem C74_save widen p :
  page_ok p → saved_as_array p → ∃ t, npy_file widen false t (elements widen p) (save p).
Proof. intros H1 H2. destruct (page_saved widen p H1 H2) as (t & H & _). by exists t. Qed.
Print Assumptions C74_save.

(** ... other pages of objects as an array of objects with the pickled elements *)
Theorem C74_save_objects sh buf dtypes :
  page_ok (PObject sh buf dtypes) → ¬ as_array buf →
  ∃ header, npy_header 124 (ascii_bytes "O8") (zlen buf) header ∧
    npy_container header (write_objects buf) (save (PObject sh buf dtypes)).
Proof. exact (objects_saved sh buf dtypes). Qed.
Print Assumptions C74_save_objects.

(** A page without fractions of seconds comes back with all its elements, and
    length and kinds are known without reading it.
    Missing for the full statement: fractions of seconds; empty pages of texts
    where bounds are checked. *)
Theorem C74_roundtrip_partial checks scalar widen p :
  page_ok p → Forall whole_seconds (elements widen p) →
  (checks = true → ∀ n buf k, p = PUnicode n buf k → n ≠ 0) →
  ∃ p' ts, readNumpy checks scalar (save p) = Ok p' ∧ elements widen p' = elements widen p
    ∧ getPageLen (save p) = Ok (zlen (elements widen p))
    ∧ getPageTypes checks scalar (save p) = Ok ts ∧ ∀ k, dget_or ts k 0 = kind_count (elements widen p) k.
Proof. exact (save_read checks scalar widen p). Qed.
Print Assumptions C74_roundtrip_partial.

(** texts of one to three bytes a character *)
Example C74_example :
  let p := PUnicode 3 [104; 233; 0; 8364; 0; 0; 97; 0; 98] 3 in
  page_ok p ∧ elements (λ b, b) p = [CStr [104; 195; 169]; CStr [226; 130; 172]; CStr [97; 0; 98]]
  ∧ readNumpy true (λ _ _, Err OtherError) (save p) = Ok p.
Proof.
  split; [|split; by vm_compute]. split; [done|]. split; [done|].
  exists [[104; 233]; [8364]; [97; 0; 98]]. split; [done|]. split; [done|].
  repeat constructor; vm_compute; congruence || (intros [? ?]; congruence) || lia.
Qed.

(** objects of one kind come back as a typed page, others as objects *)
Example C74_example_objects :
  let p := PObject [2] [CInt 5; CInt (-1)] [(KNone, 0); (KInt, 2)] in
  let q := PObject [3] [CInt 5; CNone; CDate (Ymd 2020 2 29)] [(KInt, 1); (KNone, 1); (KDate, 1)] in
  page_ok p ∧ page_ok q ∧ saved_as_array p ∧ ¬ saved_as_array q
  ∧ readNumpy true (λ _ _, Err OtherError) (save p) = Ok (PInt 8 [5; -1])
  ∧ readNumpy true (λ _ _, Err OtherError) (save q) = Ok q.
Proof.
  assert (as_array [CInt 5; CInt (-1)]) as H1.
  { split; [done|]. exists KInt. split; [done|]. split; [done|]. repeat constructor. }
  assert (¬ as_array [CInt 5; CNone; CDate (Ymd 2020 2 29)]) as H2.
  { intros (_ & k & _ & _ & H). apply list.Forall_cons in H as [<- H].
    apply list.Forall_cons in H as [H _]. discriminate H. }
  assert (∀ l : list (kind * Z), bool_decide (NoDup l.*1) = true → NoDup l.*1) as Hnd.
  { intros l. apply bool_decide_eq_true_1. }
  split; [|split; [|split; [done|split; [done|split; by vm_compute]]]].
  - split; [done|]. split; [by apply Hnd|]. split; [by intros []|]. left.
    split; [done|]. split; [|done]. repeat constructor; vm_compute; congruence.
  - split; [done|]. split; [by apply Hnd|]. split; [by intros []|]. right.
    split; [done|]. split; [|done]. repeat constructor; vm_compute; congruence.
Qed.

(** ** C75: any numpy file of a supported type is read with its elements *)

(** false in general: the byte order is parsed and not regarded *)
Theorem C75_big_refuted checks scalar widen :
  ∃ t cs file p, npy_file widen true t cs file ∧ readNumpy checks scalar file = Ok p ∧ elements widen p ≠ cs.
Proof.
  exists (TInt 8), [CInt 1], (writeNumpyHeader (bytes_of ">i8") 1 ++ [0; 0; 0; 0; 0; 0; 0; 1]), (PInt 8 [2 ^ 56]).
  split; [|split; [by vm_compute|by vm_compute]].
  apply (file_written widen true (TInt 8) 62 (bytes_of "i8") [CInt 1] [[0; 0; 0; 0; 0; 0; 0; 1]]); try done.
  - split; [set_solver|]. exists [56]. split; [|done]. repeat split; try done. repeat constructor; done.
  - repeat constructor; done.
Qed.
Print Assumptions C75_big_refuted.

(** ... the fraction of a second is read as a thousandth of itself *)
Theorem C75_fraction_refuted checks scalar widen :
  ∃ t cs file p, npy_file widen false t cs file ∧ readNumpy checks scalar file = Ok p ∧ elements widen p ≠ cs.
Proof.
  exists (TTime Milliseconds), [CDateTime (Ymd 1970 1 1) 500000],
    (writeNumpyHeader (bytes_of "<M8[ms]") 1 ++ [244; 1; 0; 0; 0; 0; 0; 0]), (PDateTime [(Ymd 1970 1 1, 500000)]).
  split; [|split; [by vm_compute|by vm_compute]].
  apply (file_written widen false (TTime Milliseconds) 60 (bytes_of "M8[ms]")
    [CDateTime (Ymd 1970 1 1) 500000] [[244; 1; 0; 0; 0; 0; 0; 0]]); try done; [by left|].
  repeat constructor; try done; vm_compute; congruence.
Qed.
Print Assumptions C75_fraction_refuted.

(** ... a text that starts with NUL is read as the empty text, if a longer one
    stands in the column *)
Theorem C75_nul_refuted checks scalar widen :
  ∃ t cs file p, npy_file widen false t cs file ∧ Forall whole_seconds cs
    ∧ readNumpy checks scalar file = Ok p ∧ elements widen p ≠ cs.
Proof.
  exists (TUnicode 3), [CStr (utf8 [0; 97])],
    (writeNumpyHeader (bytes_of "<U3") 1 ++ [0; 0; 0; 0; 97; 0; 0; 0; 0; 0; 0; 0]), (PUnicode 1 [0; 97; 0] 3).
  split; [|split; [repeat constructor|split; [by destruct checks; vm_compute|by vm_compute]]].
  apply (file_written widen false (TUnicode 3) 60 (bytes_of "U3")
    [CStr (utf8 [0; 97])] [concat [[0; 0; 0; 0]; [97; 0; 0; 0]; [0; 0; 0; 0]]]); try done; [by left| |].
  - split; [done|]. exists [51]. split; [|done]. repeat split; try done. repeat constructor; done.
  - constructor; [|constructor]. apply stored_text.
    + repeat constructor; done.
    + done.
    + simpl. lia.
    + repeat constructor; done.
Qed.
Print Assumptions C75_nul_refuted.

(** Every file with the least significant byte first, without fractions of seconds
    and without texts that start with NUL, is read with exactly its elements.
    Missing for the full statement: the other byte order, fractions of seconds,
    leading NULs; empty arrays of texts where bounds are checked; unsigned
    integers and time spans are not supported. *)
Theorem C75_read_partial checks scalar widen t cs file :
  npy_file widen false t cs file → zlen cs < 2 ^ 63 →
  Forall whole_seconds cs →
  Forall (λ c, match c with CStr t => head t ≠ Some 0 | _ => True end) cs →
  (checks = true → ∀ n, t = TUnicode n → cs ≠ []) →
  ∃ p, readNumpy checks scalar file = Ok p ∧ elements widen p = cs.
Proof. exact (read_whole checks scalar widen t cs file). Qed.
Print Assumptions C75_read_partial.

(** What is read with fractions of seconds: a thousandth of each. *)
Theorem C75_fractions checks scalar widen t cs file :
  npy_file widen false t cs file → zlen cs < 2 ^ 63 →
  Forall (λ c, match c with CStr t => head t ≠ Some 0 | _ => True end) cs →
  (checks = true → ∀ n, t = TUnicode n → cs ≠ []) →
  ∃ p, readNumpy checks scalar file = Ok p ∧ elements widen p = map shrunk cs.
Proof. exact (read_little checks scalar widen t cs file). Qed.
Print Assumptions C75_fractions.

(** The length is read right in either byte order, *)
Theorem C75_len widen big t cs file :
  npy_file widen big t cs file → zlen cs < 2 ^ 63 → getPageLen file = Ok (zlen cs).
Proof. exact (len_of widen big t cs file). Qed.
Print Assumptions C75_len.

(** and so is the number of elements of each kind. *)
Theorem C75_types checks scalar widen big t cs file :
  npy_file widen big t cs file → zlen cs < 2 ^ 63 →
  ∃ ts, getPageTypes checks scalar file = Ok ts ∧ ∀ k, dget_or ts k 0 = kind_count cs k.
Proof. exact (types_of_file checks scalar widen big t cs file). Qed.
Print Assumptions C75_types.

(** a file as numpy writes it: [np.array([datetime.date(1969, 12, 31)], dtype='<M8[D]')] *)
Example C75_example :
  let header := ascii_bytes "{'descr': '<M8[D]', 'fortran_order': False, 'shape': (1,), }" ++ repeat 32 57 ++ [10] in
  let file := 0x93 :: ascii_bytes "NUMPY" ++ [1; 0; 118; 0] ++ header ++ repeat 255 8 in
  (∀ widen, npy_file widen false TDays [CDate (Ymd 1969 12 31)] file)
  ∧ readNumpy true (λ _ _, Err OtherError) file = Ok (PDate [Ymd 1969 12 31])
  ∧ getPageTypes true (λ _ _, Err OtherError) file = Ok [(KDate, 1)].
Proof.
  intros header file. split; [|split; by vm_compute].
  intros widen. exists 60, (ascii_bytes "M8[D]"), header, [repeat 255 8].
  split; [by left|]. split; [done|]. split.
  { exists [49], (ascii_bytes ", }" ++ repeat 32 57 ++ [10]). split; [|split; [|done]].
    - repeat split; try done. repeat constructor; done.
    - exists 57%nat. by left. }
  split; [|exists [118; 0]; by repeat split; try done; repeat constructor].
  repeat constructor; done.
Qed.
