(** C105: tables written to HDF5 files and read again. *)
From Coq Require Import String Ascii Sorted.
From Verif.Spec Require Import Hdf5.
From Verif.Proof Require Import PyIso PyInferProofs Hdf5Proofs.
From Verif.Model Require Import Hdf5.
Local Open Scope string_scope.
Local Open Scope list_scope.
Local Open Scope Z_scope.

(** For the examples: [fromisoformat] of Python 3.7, the float 1.5 (number 15). *)
Definition lib5 : py_lib := {|
  iso_date := iso37_date; iso_datetime := iso37_datetime; iso_time := iso37_time;
  float_read := λ s, if bool_decide (s = bytes_of "1.5") then Some 15 else None;
  float_show := λ x, bytes_of "1.5";
  float_format := λ k x, bytes_of "1.5";
  float_int := λ x, Ok 1;
  float_is_int := λ n x, false;
  float_of_int := λ n, Ok 15;
  odd_micro := λ s, Ok 0;
  show := λ v, bytes_of "?" |}.

(** C105: a table written with to_hdf5 and read with from_hdf5 is the same table.  False in general; what holds: names without "/",
    the columns in the order of their names, arrays of numbers and bools as they are, and columns of objects or texts as their texts are
    read again: of one kind and None (dates get a time, ints of up to six digits, texts which only can be texts). *)
Theorem C105_table_partial lib (t : list (string * pages)) (t1 : list (string * list cell)) :
  iso_law (iso_date lib) (iso_datetime lib) (iso_time lib) →
  NoDup t.*1 → Forall (λ n, n ≠ EmptyString ∧ "/"%char ∉ list_ascii_of_string n) t.*1 →
  Forall2 (λ x y, x.1 = y.1 ∧
    (one_array x.2 ∧ y.2 = concat x.2.*2 ∨
     ¬ one_array x.2 ∧ ∃ k, k ≠ KNone ∧
       Forall2 (read_again (float_read lib) (float_show lib) (float_format lib) k) (concat x.2.*2) y.2)) t t1 →
  ∃ t', hdf5_again lib t = Ok t' ∧ by_name t1 t'.
Proof. intros law. exact (hdf5_table lib law t t1). Qed.
Example C105_case :
  iso_law (iso_date lib5) (iso_datetime lib5) (iso_time lib5) ∧
  hdf5_again lib5
    [("n", [(Some KInt, [CInt 20230101; CInt (-7)]); (Some KInt, [CInt 5])]);
     ("d", [(None, [CDateTime (Ymd 2020 2 29) 3600000001; CNone])]);
     ("b", [(None, [CNone; CBool true]); (Some KBool, [CBool false])]);
     ("t", [(None, [CStr (bytes_of "word")]); (None, [CStr (bytes_of "longer word")])]);
     ("m", [(None, [CInt 12; CNone; CInt (-20230101)])])] =
  Ok [("b", [CNone; CBool true; CBool false]);
      ("d", [CDateTime (Ymd 2020 2 29) 3600000001; CNone]);
      ("m", [CInt 12; CNone; CInt (-20230101)]);
      ("n", [CInt 20230101; CInt (-7); CInt 5]);
      ("t", [CStr (bytes_of "word"); CStr (bytes_of "longer word")])].
Proof. split; [exact iso37_law|by vm_compute]. Qed.
Example C105_read_again_case :
  Forall2 (read_again (float_read lib5) (float_show lib5) (float_format lib5) KFloat)
    [CFloat 15; CNone; CStr (bytes_of "1.5")] [CFloat 15; CNone; CFloat 15] ∧
  by_name [("n", 1); ("b", 2); ("t", 3)] [("b", 2); ("n", 1); ("t", 3)].
Proof.
  assert (decimal_text [49] [53] (bytes_of "1.5")) as D by (split_and!; [done|done|by repeat constructor|by repeat constructor|by left]).
  split.
  - apply List.Forall2_cons; [|apply List.Forall2_cons; [done|apply List.Forall2_cons; [|apply List.Forall2_nil]]].
    + split; [done|]. split; [done|]. exists [49], [53]. split; [done|]. split; [done|]. split; [done|by left].
    + right. exists [49], [53], 15. split; [done|]. split; [done|]. split; [done|]. split; [done|by left].
  - split; [apply Permutation_swap|]. by repeat constructor.
Qed.
Print Assumptions C105_table_partial.

(** The order of the columns is lost. *)
Theorem C105_order_refuted :
  hdf5_again lib5 [("b", [(Some KInt, [CInt 1])]); ("a", [(Some KInt, [CInt 2])])] = Ok [("a", [CInt 2]); ("b", [CInt 1])].
Proof. by vm_compute. Qed.
Print Assumptions C105_order_refuted.

(** A file with a "/" in a name is written and cannot be read. *)
Theorem C105_slash_refuted :
  (∃ file, to_hdf5 lib5 [] [("km/h", [(Some KInt, [CInt 90])])] = Ok file) ∧
  hdf5_again lib5 [("km/h", [(Some KInt, [CInt 90])])] = Err TypeError.
Proof. split; [eexists; by vm_compute|by vm_compute]. Qed.
Print Assumptions C105_slash_refuted.

(** Texts become values of other types; where only some do, they come back as the texts of these. *)
Theorem C105_texts_refuted :
  hdf5_again lib5 [("a", [(None, [CStr (bytes_of "007"); CStr (bytes_of "12")])])] = Ok [("a", [CInt 7; CInt 12])] ∧
  hdf5_again lib5 [("a", [(None, [CStr (bytes_of "007"); CStr (bytes_of "x")])])] = Ok [("a", [CStr (bytes_of "7"); CStr (bytes_of "x")])].
Proof. by vm_compute. Qed.
Print Assumptions C105_texts_refuted.

(** In a column of texts a missing value becomes the text "None". *)
Theorem C105_none_refuted :
  hdf5_again lib5 [("a", [(None, [CStr (bytes_of "abc"); CNone])])] = Ok [("a", [CStr (bytes_of "abc"); CStr (bytes_of "None")])].
Proof. by vm_compute. Qed.
Print Assumptions C105_none_refuted.

(** With one missing value, ints become dates: dates get a time as well. *)
Theorem C105_dates_refuted :
  hdf5_again lib5 [("a", [(Some KInt, [CInt 20230101])])] = Ok [("a", [CInt 20230101])] ∧
  hdf5_again lib5 [("a", [(None, [CInt 20230101; CNone])])] = Ok [("a", [CDate (Ymd 2023 1 1); CNone])] ∧
  hdf5_again lib5 [("a", [(None, [CDate (Ymd 2023 1 1)])])] = Ok [("a", [CDateTime (Ymd 2023 1 1) 0])].
Proof. by vm_compute. Qed.
Print Assumptions C105_dates_refuted.

(** Bools beside ints become ints, whether objects or arrays of several types. *)
Theorem C105_bools_refuted :
  hdf5_again lib5 [("a", [(None, [CBool true; CInt 12; CBool false])])] = Ok [("a", [CInt 1; CInt 12; CInt 0])] ∧
  hdf5_again lib5 [("a", [(Some KBool, [CBool true]); (Some KInt, [CInt 12])])] = Ok [("a", [CInt 1; CInt 12])].
Proof. by vm_compute. Qed.
Print Assumptions C105_bools_refuted.
