(** How decimal numbers are written in texts (lists of ASCII codes), and arithmetic
    that computes their values.  Knows nothing of tablite but the record of the
    operations. *)
From Coq Require Import Qpower.
From stdpp Require Import countable.
From Verif.Spec Require Export TypedText GuessedPage Binary64.
Local Open Scope Z_scope.

Definition sign_mark (c : Z) : Prop := c = 43 ∨ c = 45.
Definition exponent_mark (c : Z) : Prop := c = 101 ∨ c = 69.
Definition sign_text (sg : list Z) : Prop := sg = [] ∨ ∃ c, sg = [c] ∧ sign_mark c.

(** ** Numbers as programming languages write them *)

(** digits, underscores after the first *)
Definition digit_run (s : list Z) : Prop :=
  s = [] ∨ ∃ d r, s = d :: r ∧ digit d ∧ Forall (λ c, digit c ∨ c = 95) r.
Definition exponent_text (x : list Z) : Prop :=
  x = [] ∨ ∃ e sg ds, x = e :: sg ++ ds ∧ exponent_mark e ∧ sign_text sg ∧ ds ≠ [] ∧ digit_run ds.

(** [nan], [inf], [12], [12e5], [12.5e-5], [12.], [.5], also a lone [.] *)
Definition simple_float (s : list Z) : Prop :=
  ∃ sg body, s = sg ++ body ∧ sign_text sg ∧
    (map lower body = [110; 97; 110] ∨ map lower body = [105; 110; 102] ∨
     ∃ a x, digit_run a ∧ exponent_text x ∧
       (a ≠ [] ∧ body = a ++ x ∨ ∃ b, digit_run b ∧ body = a ++ [46] ++ b ++ x)).

(** ** Numbers as people write them *)
Record decimal_number := Decimal {
  d_negative : bool;
  d_whole : list Z;                       (* digits *)
  d_fraction : list Z;                    (* digits *)
  d_exponent : option (bool * list Z)     (* negative, digits *)
}.

Definition decimal_value (p : decimal_number) : Q :=
  let m := (inject_Z (digits_value (d_whole p ++ d_fraction p)) * (1 # 10) ^ zlen (d_fraction p))%Q in
  let m := (if d_negative p then - m else m)%Q in
  match d_exponent p with
  | None => m
  | Some (negative, ds) => (m * (10 # 1) ^ (if negative then - digits_value ds else digits_value ds))%Q
  end.

(** what may follow the [e]: signs and digits, a sign first; the last sign counts *)
Definition exponent_part (negative : bool) (ds y : list Z) : Prop :=
  Forall (λ c, digit c ∨ sign_mark c) y ∧ (∃ c r, y = c :: r ∧ sign_mark c) ∧
  ds = filter digit y ∧ list.last (filter sign_mark y) = Some (if negative then 45 else 43).

(** [point] and what follows it *)
Definition fraction_part (point : Z) (fraction : list Z) (e : option (bool * list Z)) (w : list Z) : Prop :=
  ∃ x, w = point :: fraction ++ x ∧ Forall digit fraction ∧
    (x = [] ∧ e = None ∨
     ∃ c y negative ds, x = c :: y ∧ exponent_mark c ∧ exponent_part negative ds y ∧ e = Some (negative, ds)).

(** digits and [sep]s, a digit first if there is a sign; three characters after every
    [sep]; a fraction or none *)
Definition decimal_in (sep point : Z) (p : decimal_number) (s : list Z) : Prop :=
  ∃ sg u w, s = sg ++ u ++ w ∧ sign_text sg ∧ (d_negative p = true ↔ sg = [45]) ∧
    Forall (λ c, digit c ∨ c = sep) u ∧ d_whole p = filter (λ c, c ≠ sep) u ∧
    ((∃ c r, u = c :: r ∧ digit c) ∨ sg = [] ∧ u = [] ∧ w ≠ []) ∧
    (∀ a b, u = a ++ sep :: b → 3 <= zlen (b ++ w)) ∧
    (w = [] ∧ d_fraction p = [] ∧ d_exponent p = None ∨ fraction_part point (d_fraction p) (d_exponent p) w).

(** 1,234.50 or 1.234,50 *)
Definition local_decimal (is_american : bool) : decimal_number → list Z → Prop :=
  if is_american then decimal_in 44 46 else decimal_in 46 44.

(** the notation of textbooks: groups of three digits or none, digits after the point
    and after [e] *)
Definition textbook_decimal (sep point : Z) (s : list Z) : Prop :=
  ∃ sg whole f x, s = sg ++ whole ++ f ++ x ∧ sign_text sg ∧
    (Forall digit whole ∨
     ∃ g gs, whole = g ++ concat (map (cons sep) gs) ∧ Forall digit g ∧ 1 <= zlen g <= 3 ∧
       Forall (λ g, Forall digit g ∧ zlen g = 3) gs) ∧
    (f = [] ∨ ∃ ds, f = point :: ds ∧ ds ≠ [] ∧ Forall digit ds) ∧
    (x = [] ∨ ∃ e sg ds, x = e :: sg ++ ds ∧ exponent_mark e ∧ sign_text sg ∧ ds ≠ [] ∧ Forall digit ds).

(** ** Arithmetic; [val] is the number a float stands for *)
Record exact_arith (val : Z → Q) (fa : float_arith) : Prop := ExactArith {
  ea_int n : (val (f_int fa n) == inject_Z n)%Q;
  ea_add a b : (val (f_add fa a b) == val a + val b)%Q;
  ea_mul a b : (val (f_mul fa a b) == val a * val b)%Q;
  ea_tenth : (val (f_tenth fa) == 1 # 10)%Q;
  ea_pow10 x n : (val x == inject_Z n)%Q → (val (f_pow10 fa x) == (10 # 1) ^ n)%Q
}.

(** floats of 53 bits; [pow] is left open *)
Record rounded_arith (val : Z → Q) (fa : float_arith) : Prop := RoundedArith {
  ra_int n : (val (f_int fa n) == fl (inject_Z n))%Q;
  ra_add a b : (val (f_add fa a b) == fl (val a + val b))%Q;
  ra_mul a b : (val (f_mul fa a b) == fl (val a * val b))%Q;
  ra_tenth : (val (f_tenth fa) == fl (1 # 10))%Q
}.

(** both kinds exist: numbers by their codes *)
Definition code_of (q : Qc) : Z := Z.pos (encode q).
Definition coded_number (z : Z) : Qc :=
  match z with Z.pos p => match decode p with Some q => q | None => Q2Qc 0 end | _ => Q2Qc 0 end.
Definition floats_by (round : Q → Qc) : float_arith :=
  FloatArith (λ n, code_of (round (inject_Z n)))
    (λ a b, code_of (round (coded_number a + coded_number b)%Q)) (λ a b, code_of (round (coded_number a * coded_number b)%Q))
    (code_of (round (1 # 10))) (λ x, code_of (Q2Qc ((10 # 1) ^ Qfloor (coded_number x))%Q)) (λ _, 0).

(** one part in 2^53 *)
Definition one_part : Q := 1 # 9007199254740992.
