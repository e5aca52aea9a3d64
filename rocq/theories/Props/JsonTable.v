(** C92: a table exported to JSON and imported again. *)
From Coq Require Import String.
From Verif.Spec Require Import JsonTable.
From Verif.Proof Require Import JsonTableProofs TableBase.
From Verif.Model Require Import JsonTable.
Local Open Scope string_scope.
Local Open Scope list_scope.
Local Open Scope Z_scope.

(** C92: [from_json(to_json(t))] is [t].  False for every table: there is a column of row numbers in front. *)
Theorem C92_roundtrip_refuted {T} `{EqDecision T} (ty : cval → T) ps fshow (t : table string cval T) d :
  0 < ps → NoDup t.*1 → table_to_json fshow t = Ok d → contents (table_from_json ty ps d) ≠ contents t.
Proof. exact (json_more ty ps fshow t d). Qed.
Example C92_roundtrip_refuted_case :
  let t := tbl_of_columns (λ _, tt) 2 [("a", [CBool true]); ("row id", [CInt 7])] in
  NoDup t.*1 ∧ ∃ d, table_to_json (λ _, []) t = Ok d ∧ contents (table_from_json (λ _, tt) 2 d) =
    [("row id", [CInt 1]); ("a", [CStr (txt "True")]); ("row id_1", [CInt 7])].
Proof. cbv zeta. split; [apply (bool_decide_unpack _); by vm_compute|]. eexists. split; [by vm_compute|]. by vm_compute. Qed.
Print Assumptions C92_roundtrip_refuted.

(** Behind that column every column comes back if its values are None, integers, floats and texts, in tables of any
    shape. *)
Theorem C92_roundtrip_partial {T} `{EqDecision T} (ty : cval → T) ps fshow (t : table string cval T) :
  0 < ps → NoDup t.*1 → "row id" ∉ t.*1 → Forall (λ c, Forall json_value c.2) (contents t) →
  ∃ d, table_to_json fshow t = Ok d ∧
    contents (table_from_json ty ps d) = ("row id", map (λ i, CInt (Z.of_nat i + 1)) (seq 0 (nrows (contents t)))) :: contents t.
Proof. exact (json_plain ty ps fshow t). Qed.
Example C92_roundtrip_case :
  let t := tbl_of_columns (λ _, tt) 2 [("a", [CInt 1; CNone; CStr (txt "x")]); ("b", [CInt 7])] in
  NoDup t.*1 ∧ "row id" ∉ t.*1 ∧ ∃ d, table_to_json (λ _, []) t = Ok d ∧ contents (table_from_json (λ _, tt) 2 d) =
    [("row id", [CInt 1; CInt 2; CInt 3]); ("a", [CInt 1; CNone; CStr (txt "x")]); ("b", [CInt 7])].
Proof.
  cbv zeta. split; [apply (bool_decide_unpack _); by vm_compute|]. split; [apply (bool_decide_unpack _); by vm_compute|].
  eexists. split; [by vm_compute|]. by vm_compute.
Qed.
Print Assumptions C92_roundtrip_partial.

(** Any table: it is written unless it has bytes; the names stay distinct; values of other types come back as their texts
    (C53 tells what [DataTypes.from_json] reads from them). *)
Theorem C92_written {T} `{EqDecision T} fshow (t : table string cval T) : NoDup t.*1 →
  (∃ d, table_to_json fshow t = Ok d) ↔ Forall (λ c, Forall serialisable c.2) (contents t).
Proof. exact (json_ok fshow t). Qed.
Theorem C92_read {T} `{EqDecision T} (ty : cval → T) ps fshow (t : table string cval T) d :
  0 < ps → NoDup t.*1 → table_to_json fshow t = Ok d →
  ∃ rest, contents (table_from_json ty ps d)
      = ("row id", map (λ i, CInt (Z.of_nat i + 1)) (seq 0 (nrows (contents t)))) :: rest ∧
    NoDup ("row id" :: rest.*1) ∧
    Forall2 (λ c r, Forall2 (λ v w, ∃ j, to_json fshow v = Ok j ∧ w = value_of j) c.2 r.2 ∧
                    (Forall json_value c.2 → r.2 = c.2)) (contents t) rest ∧
    ("row id" ∉ t.*1 → rest.*1 = t.*1).
Proof. exact (json_roundtrip ty ps fshow t d). Qed.
Example C92_written_case :
  let t := tbl_of_columns (λ _, tt) 2 [("a", [CBytes []])] in
  NoDup t.*1 ∧ table_to_json (λ _, []) t = Err TypeError.
Proof. cbv zeta. split; [apply (bool_decide_unpack _); by vm_compute|]. by vm_compute. Qed.
Print Assumptions C92_written.
Print Assumptions C92_read.

(** C92: the row numbers of [as_json_serializable] are the numbers of the rows beside them.  True for every slice with a
    positive step or the step -1 of a table with columns of one length. *)
Theorem C92_labels_partial {T} `{EqDecision T} fshow (t : table string cval T) rc start_on columns s d n :
  NoDup (default t.*1 columns) → rect (nrows (contents t)) (contents t) →
  0 < sl_stepv s ∨ sl_stepv s = -1 →
  as_json_serializable fshow t (Some rc) start_on columns (Some s) = Ok (d, n) →
  let P := slice_positions (seq 0 (nrows (contents t))) s in
  n = Z.of_nat (nrows (contents t)) ∧ NoDup d.*1 ∧
  ∃ rest, d = (rc, map (λ p, JInt (p + start_on)) P) :: rest ∧
    Forall2 (λ n r, ∃ col, dget (contents t) n = Some col ∧ rows_of (to_json fshow) P col r.2) (default t.*1 columns) rest ∧
    (rc ∉ default t.*1 columns → rest.*1 = default t.*1 columns).
Proof. exact (serial_labels fshow t rc start_on columns s d n). Qed.
Example C92_labels_case :
  let t := tbl_of_columns (λ _, tt) 2 [("a", [CInt 10; CInt 11; CInt 12; CInt 13]); ("b", [CNone; CNone; CInt 5; CInt 6])] in
  as_json_serializable (λ _, []) t (Some "a") 1 None (Some (Slice (Some (-3)) None (Some 2)))
  = Ok ([("a", [JInt 2; JInt 4]); ("a_1", [JInt 11; JInt 13]); ("b", [JNull; JInt 6])], 4).
Proof. by vm_compute. Qed.
Print Assumptions C92_labels_partial.

(** Columns of different lengths: the row 2 gets the value of row 1.  And a step below -1: the numbers are those of the
    slice, the values those of the whole span. *)
Theorem C92_labels_refuted :
  let t := tbl_of_columns (λ _, tt) 2 [("a", [CInt 10; CInt 11; CInt 12]); ("b", [CInt 20; CInt 21])] in
  as_json_serializable (λ _, []) t (Some "row id") 1 None (Some (Slice (Some (-2)) None None))
  = Ok ([("row id", [JInt 2; JInt 3]); ("a", [JInt 11; JInt 12]); ("b", [JInt 20; JInt 21])], 3).
Proof. by vm_compute. Qed.
Theorem C92_step_refuted :
  let t := tbl_of_columns (λ _, tt) 2 [("a", [CInt 10; CInt 11; CInt 12])] in
  as_json_serializable (λ _, []) t (Some "row id") 1 None (Some (Slice None None (Some (-2))))
  = Ok ([("row id", [JInt 3; JInt 1]); ("a", [JInt 12; JInt 11; JInt 10])], 3).
Proof. by vm_compute. Qed.
Print Assumptions C92_labels_refuted.
Print Assumptions C92_step_refuted.
