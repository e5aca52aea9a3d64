(** What a table written to an HDF5 file and read again may be expected to be.  Knows nothing of tablite. *)
From Coq Require Import String Sorted.
From Verif.Spec Require Export PyTexts.
Local Open Scope Z_scope.

(** [v], in a column whose other values are of kind [k] or missing, is [w] when its text is read again.  [read], [show] and [format]
    are the conversions of floats: [float(s)], [str(x)] and the text with so many decimals. *)
Definition read_again (read : list Z → option Z) (show : Z → list Z) (format : nat → Z → list Z) (k : kind) (v w : cell) : Prop :=
  match v with
  | CNone => k ≠ KStr ∧ w = CNone
  | CDate d => k = KDateTime ∧ python_date d ∧ w = CDateTime d 0
  | CDateTime d us => k = KDateTime ∧ python_date d ∧ 0 <= us < us_per_day ∧ w = v
  | CTime us => k = KTime ∧ 0 <= us < us_per_day ∧ w = v
  | CBool _ => k = KBool ∧ w = v
  | CInt n => k = KInt ∧ n < 10 ^ 6 ∧ w = v
  | CFloat x => k = KFloat ∧ w = v ∧
      ∃ a b, decimal_text a b (show x) ∧ read (show x) = Some x ∧ format (length b) x = show x ∧ (zlen a <= 4 ∨ head (show x) = Some 45)
  | CStr s => s ∈ missing_texts ∧ k ≠ KStr ∧ w = CNone ∨ plain_text read format k s w
  end.

(** [t'] has the entries of [t] in the order of their names. *)
Definition by_name {V} (t t' : list (string * V)) : Prop :=
  t' ≡ₚ t ∧ Sorted (λ x y, String.leb x.1 y.1 = true) t'.

(** The pages [c], with the types of their arrays, make one array of a type that HDF5 has (bools, ints, floats). *)
Definition one_array {V} (c : list (option kind * V)) : Prop := ∃ k, Forall (λ p, p.1 = Some k) c.
