(** C83: decimal numbers in texts (nimlite/infertypes.nim 97-174). *)
From Coq Require Import String.
From Verif.Spec Require Import FloatText.
From Verif.Proof Require Import FloatFinal FloatValues.
Local Open Scope string_scope.
Local Open Scope list_scope.
Local Open Scope Z_scope.

(** The full claim fails.  Texts that are no numbers are read as numbers: here
    1.5e+3-2 is 1.5e-32. *)
Theorem C83_malformed_refuted :
  ¬ ∀ fa checks s v, inferFloat fa checks false true s = Ok v → textbook_decimal 44 46 (without_blanks s).
Proof. exact malformed_refuted. Qed.
Print Assumptions C83_malformed_refuted.

(** And with floats the number read is not the float next to the number written: 0,3 is
    0.30000000000000004. *)
Theorem C83_rounding_refuted val fa : rounded_arith val fa → ∀ checks,
  (∃ v, inferFloat fa checks false false (bytes_of "0,3") = Ok v) ∧
  ∀ v, inferFloat fa checks false false (bytes_of "0,3") = Ok v → ¬ (val v == fl (3 # 10))%Q.
Proof. intros H checks. split; [by eexists|exact (third_refuted val fa H checks)]. Qed.
Print Assumptions C83_rounding_refuted.

Example C83_rounded_met : rounded_arith coded_number (floats_by fl).
Proof. exact floats_rounded. Qed.

(** ** Which texts are numbers *)

(** numbers as programming languages write them, left to [parseFloat] *)
Theorem C83_simple_partial fa checks am s v :
  inferFloat fa checks true am s = Ok v ↔ simple_float (without_blanks s) ∧ v = f_parse fa (without_blanks s).
Proof. exact (simple_spec fa checks am s v). Qed.
Print Assumptions C83_simple_partial.

Example C83_simple_met : simple_float (bytes_of "-1_000.5E-3") ∧ simple_float (bytes_of "+Inf") ∧ ¬ simple_float (bytes_of "1,5").
Proof.
  rewrite <- !parse_ok. split; [by vm_compute|]. split; [by vm_compute|]. by vm_compute.
Qed.

(** numbers as people write them, computed without rounding *)
Theorem C83_local_partial val fa : exact_arith val fa → ∀ checks am s q,
  (∃ v, inferFloat fa checks false am s = Ok v ∧ (val v == q)%Q) ↔
  (∃ p, local_decimal am p (without_blanks s) ∧ (decimal_value p == q)%Q).
Proof. exact (exact_spec val fa). Qed.
Print Assumptions C83_local_partial.

Example C83_local_met :
  exact_arith coded_number (floats_by Q2Qc) ∧
  local_decimal true (Decimal true (bytes_of "1234") (bytes_of "50") (Some (true, bytes_of "2"))) (without_blanks (bytes_of "- 1,234.50e-2")) ∧
  (decimal_value (Decimal true (bytes_of "1234") (bytes_of "50") (Some (true, bytes_of "2"))) == - (2469 # 200))%Q.
Proof.
  split; [exact floats_exact|]. split; [|by vm_compute].
  exists (bytes_of "-"), (bytes_of "1,234"), (bytes_of ".50e-2"). split; [by vm_compute|].
  split; [right; exists 45; split; [done|by right]|]. split; [done|].
  split; [apply (bool_decide_unpack _); by vm_compute|]. split; [by vm_compute|].
  split; [left; exists 49, (bytes_of ",234"); split; [done|by vm_compute]|]. split.
  { intros a b E. destruct a as [|? [|? a]]; try discriminate E.
    - injection E as _ E. subst b. by vm_compute.
    - exfalso. assert (44 ∈ drop 2 (bytes_of "1,234")) as Hin by (rewrite E; cbn [drop app]; apply elem_of_app; right; left).
      revert Hin. apply (bool_decide_unpack _). by vm_compute. }
  right. exists (bytes_of "e-2"). split; [done|]. split; [apply (bool_decide_unpack _); by vm_compute|].
  right. exists 101, (bytes_of "-2"), true, (bytes_of "2"). split; [done|]. split; [by left|]. split; [|done].
  split; [apply (bool_decide_unpack _); by vm_compute|]. split; [exists 45, [50]; split; [done|by right]|]. done.
Qed.

(** ** Floats *)

(** whole numbers up to 2^53 are read exactly *)
Theorem C83_whole_partial val fa : rounded_arith val fa → ∀ checks am s p,
  local_decimal am p (without_blanks s) → Forall (λ c, c = 48) (d_fraction p) → d_exponent p = None →
  digits_value (d_whole p) <= 2 ^ 53 →
  ∃ v, inferFloat fa checks false am s = Ok v ∧ (val v == decimal_value p)%Q.
Proof. exact (whole_spec val fa). Qed.
Print Assumptions C83_whole_partial.

Example C83_whole_met :
  let p := Decimal false (bytes_of "9007199254740992") (bytes_of "00") None in
  local_decimal false p (without_blanks (bytes_of "9007199254740992,00")) ∧ Forall (λ c, c = 48) (d_fraction p) ∧
  digits_value (d_whole p) <= 2 ^ 53.
Proof.
  cbv zeta. split; [|split; [by repeat constructor|by vm_compute]].
  exists [], (bytes_of "9007199254740992"), (bytes_of ",00"). split; [by vm_compute|].
  split; [by left|]. split; [done|]. split; [apply (bool_decide_unpack _); by vm_compute|]. split; [by vm_compute|].
  split; [left; exists 57, (bytes_of "007199254740992"); split; [done|by vm_compute]|]. split.
  { intros a b E. exfalso. assert (46 ∈ bytes_of "9007199254740992") as Hin by (rewrite E; apply elem_of_app; right; left).
    revert Hin. apply (bool_decide_unpack _). by vm_compute. }
  right. exists []. split; [done|]. split; [apply (bool_decide_unpack _); by vm_compute|]. by left.
Qed.

(** Every number is read nearly right: two roundings for every digit and four more, and
    [pow] as good as it is.  What is missing for the full claim is the last rounding. *)
Theorem C83_close_partial val fa : rounded_arith val fa → ∀ P, (1 <= P)%Q →
  (∀ x n, (val x == inject_Z n)%Q → (Qabs (val (f_pow10 fa x) - (10 # 1) ^ n) <= (10 # 1) ^ n * (P - 1))%Q) →
  ∀ checks am s p, local_decimal am p (without_blanks s) →
  (∀ neg ds, d_exponent p = Some (neg, ds) → digits_value ds <= 2 ^ 53) →
  ∃ v, inferFloat fa checks false am s = Ok v ∧
    (Qabs (val v - decimal_value p) <=
     Qabs (decimal_value p) * ((1 + one_part) ^ (2 * zlen (d_whole p ++ d_fraction p) + 4) * P - 1))%Q.
Proof. exact (close_spec val fa). Qed.
Print Assumptions C83_close_partial.

(** floats that meet the hypotheses; the number is that of [C83_local_met] *)
Example C83_close_met :
  rounded_arith coded_number (floats_by fl) ∧
  ∀ x n, (coded_number x == inject_Z n)%Q →
    (Qabs (coded_number (f_pow10 (floats_by fl) x) - (10 # 1) ^ n) <= (10 # 1) ^ n * (1 - 1))%Q.
Proof. split; [exact floats_rounded|exact floats_pow]. Qed.
