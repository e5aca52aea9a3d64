(** C52, C53: values as bytes and as JSON. *)
From Verif.Proof Require Import CodecProofs.
Local Open Scope Z_scope.

(** ** C52 *)

(** The full statement,
      [∀ v, py_value v → from_type_code fread (to_bytes fshow v) (type_code v) = Ok v],
    is false for timedeltas, whatever texts floats have: microseconds are not written, so two
    values have the same bytes; and the number of days as a float is too coarse for many days. *)
Theorem C52_timedelta_refuted fshow fread : reads_back fshow fread →
  (∃ v w, py_value v ∧ py_value w ∧ v ≠ w ∧ type_code v = type_code w ∧ to_bytes fshow v = to_bytes fshow w) ∧
  (∃ d s w, py_value (CDelta d s 0) ∧ w ≠ CDelta d s 0 ∧
     from_type_code fread (to_bytes fshow (CDelta d s 0)) (type_code (CDelta d s 0)) = Ok w).
Proof. exact (bytes_lost fshow fread). Qed.
Print Assumptions C52_timedelta_refuted.

(** Everything else comes back, timedeltas of whole seconds up to 52000 days too.  Missing: other
    timedeltas (see above), pickled objects, numpy scalars. *)
Theorem C52_roundtrip_partial fshow fread v :
  reads_back fshow fread → py_value v →
  (∀ d s u, v = CDelta d s u → u = 0 ∧ -52000 <= d <= 52000) →
  from_type_code fread (to_bytes fshow v) (type_code v) = Ok v.
Proof. exact (bytes_roundtrip fshow fread v). Qed.
Print Assumptions C52_roundtrip_partial.

Example C52_example :
  reads_back fshow0 fread0 ∧
  let dt := CDatetime (Ymd 2024 2 29) (Tod 23 59 59 10) in
  let td := CDelta (-3) 7 0 in
  py_value dt ∧ py_value td ∧
  to_bytes fshow0 dt = txt "2024-02-29T23:59:59.000010" ∧
  from_type_code fread0 (txt "2024-02-29T23:59:59.000010") 7 = Ok dt ∧
  from_type_code fread0 (txt "2023-02-29T23:59:59.000010") 7 = Err ValueError ∧
  from_type_code fread0 (to_bytes fshow0 td) 10 = Ok td ∧
  from_type_code fread0 (to_bytes fshow0 (CInt (-1203))) 3 = Ok (CInt (-1203)).
Proof. exact codec_example. Qed.

(** ** C53 *)

(** The full statement,
      [∀ v j, py_value v → to_json fshow v = Ok j → from_json fread nan j (type_of v) = Ok v],
    is false: texts which mean "no value" come back as None, nan too if it is numpy's nan. *)
Theorem C53_none_refuted fshow fread nan :
  (∃ v j, py_value v ∧ v ≠ CNone ∧ to_json fshow v = Ok j ∧ from_json fread nan j (type_of v) = Ok CNone) ∧
  (∃ j, to_json fshow (CFloat Nan) = Ok j ∧ from_json fread true j DFloat = Ok CNone).
Proof. exact (json_lost fshow fread nan). Qed.
Print Assumptions C53_none_refuted.

(** Everything else comes back, timedeltas with microseconds too.  Missing: the texts null, Null,
    NULL, #N/A, #n/a and None, the object np.nan; bytes raise TypeError; time zones. *)
Theorem C53_roundtrip_partial fshow fread nan v :
  reads_back fshow fread → plain_text fshow → py_value v →
  (∀ s, v ≠ CBytes s) →
  (∀ s, v = CStr s → s ∉ map txt ["null"; "Null"; "NULL"; "#N/A"; "#n/a"; "None"]%string) →
  (v = CFloat Nan → nan = false) →
  ∃ j, to_json fshow v = Ok j ∧ from_json fread nan j (type_of v) = Ok v.
Proof. exact (json_roundtrip_texts fshow fread nan v). Qed.
Print Assumptions C53_roundtrip_partial.

(** bytes are refused *)
Theorem C53_bytes fshow s : to_json fshow (CBytes s) = Err TypeError.
Proof. exact (json_bytes fshow s). Qed.
Print Assumptions C53_bytes.

Example C53_example :
  reads_back fshow0 fread0 ∧ plain_text fshow0 ∧ py_value (CDelta (-1) 86399 999999) ∧
  res_bind (to_json fshow0 (CDelta (-1) 86399 999999)) (λ j, from_json fread0 false j DDelta) =
    Ok (CDelta (-1) 86399 999999) ∧
  res_bind (to_json fshow0 (CStr (txt "none"))) (λ j, from_json fread0 false j DStr) = Ok (CStr (txt "none")) ∧
  res_bind (to_json fshow0 (CTime (Tod 1 2 3 0))) (λ j, from_json fread0 false j DTime) = Ok (CTime (Tod 1 2 3 0)).
Proof. exact json_example. Qed.
