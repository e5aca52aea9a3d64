(** Rounding to the nearest float with 53 bits, ties to even.  The exponent is not bounded:
    what is rounded here is zero or far from the ends of the range of a double. *)
From Verif.Spec Require Export Base.
From Coq Require Export QArith Qround Qabs Qcanon.
Local Open Scope Z_scope.

(** the nearest integer, of two the even one *)
Definition rne (x : Q) : Z :=
  let f := Qfloor x in
  match Qcompare (x - inject_Z f) (1 # 2) with
  | Lt => f
  | Gt => f + 1
  | Eq => if Z.even f then f else f + 1
  end.
(** towards zero, Python's [int] of a float *)
Definition qtrunc (x : Q) : Z := Z.quot (Qnum x) (Z.pos (Qden x)).

(** 2^e *)
Definition pow2 (e : Z) : Q := if 0 <=? e then inject_Z (2 ^ e) else / inject_Z (2 ^ (- e)).
(** the exponent [e] with 2^52 <= |x|/2^e < 2^53 *)
Definition exponent (x : Q) : Z :=
  let k := Z.log2 (Z.abs (Qnum x)) - Z.log2 (Z.pos (Qden x)) in
  if Qle_bool (pow2 k) (Qabs x) then k - 52 else k - 53.
Definition fl (x : Q) : Qc :=
  let e := exponent x in Q2Qc (inject_Z (rne (x / pow2 e)) * pow2 e).

Example rne_tests : map rne [5 # 2; 7 # 2; -(5 # 2); 9 # 4; -(9 # 4); 11 # 4]%Q = [2; 4; -2; 2; -2; 3].
Proof. by vm_compute. Qed.
Example fl_tenth : Qeq (this (fl (1 # 10))) (3602879701896397 # 36028797018963968).
Proof. by vm_compute. Qed.
Example fl_third : Qeq (this (fl (-(1 # 3)))) (-(6004799503160661 # 18014398509481984)).
Proof. by vm_compute. Qed.
Example fl_large : this (fl (inject_Z 9007199254740993)) = inject_Z 9007199254740992 ∧ fl 0 = Q2Qc 0.
Proof. split; [by vm_compute|]. apply Qc_is_canon. by vm_compute. Qed.
