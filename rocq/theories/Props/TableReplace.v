(** C101: replacing values in the columns of a table. *)
From Verif.Spec Require Import Counts.
From Verif.Model Require Import TableReplace Dtype.
From Verif.Proof Require Import ColumnMisc TableReplaceProofs.
Local Open Scope Z_scope.

(** C101: [t.replace(mapping, columns)] replaces in the named columns, by default in all, every value that is a key of
    the mapping by its value, once, and leaves the other values and columns and all names as they are; an unknown name
    raises and nothing is changed.  False in general: see below, and C14 for the values which a page cannot hold. *)

(** For keys that numpy keeps apart and values that the pages can hold (as in C14), the names without repetition. *)
Theorem C101_replace_partial {N A T} `{EqDecision N, EqDecision T} (ty : A → T) cast np_array (eqb : A → A → bool)
    m columns (t : list (N * column A T)) ns :
  np_array (map fst m) = map fst m → NoDup (map fst t) →
  match columns with AllColumns => ns = map fst t | OneName n => ns = [n] | Names l => ns = l end →
  NoDup ns → (∀ n, n ∈ ns → ∃ c, (n, c) ∈ t ∧ ∀ p, p ∈ c → Forall (λ kv, cast [p] kv.2 = Ok kv.2) m) →
  ∃ t', table_replace ty cast np_array eqb m columns t = (t', None) ∧
    Forall2 (λ x y, x.1 = y.1 ∧
      (x.1 ∈ ns → col_iter y.2 = map (subst_value eqb m) (col_iter x.2) ∧ map plen y.2 = map plen x.2 ∧
                  (types_ok ty x.2 → types_ok ty y.2)) ∧
      (x.1 ∉ ns → x.2 = y.2)) t t'.
Proof. exact (table_replace_spec ty cast np_array eqb m columns t ns). Qed.
Example C101_replace_case :
  table_replace (N:=Z) cty np_cast np_array_of ceqb [(CInt 1, CInt 2); (CInt 2, CInt 3)] (Names [7; 5])
    [(5, [new_page cty [CInt 1; CInt 4]; new_page cty [CInt 2]]); (6, [new_page cty [CInt 1; CInt 2; CInt 4]]);
     (7, [new_page cty [CInt 2; CInt 2; CInt 1]])] =
    ([(5, [new_page cty [CInt 2; CInt 4]; new_page cty [CInt 3]]); (6, [new_page cty [CInt 1; CInt 2; CInt 4]]);
      (7, [new_page cty [CInt 3; CInt 3; CInt 2]])], None) ∧
  np_array_of (map fst [(CInt 1, CInt 2); (CInt 2, CInt 3)]) = map fst [(CInt 1, CInt 2); (CInt 2, CInt 3)] ∧
  np_cast [new_page cty [CInt 1; CInt 4]] (CInt 3) = Ok (CInt 3).
Proof. by vm_compute. Qed.
Print Assumptions C101_replace_partial.

(** An unknown name raises and changes nothing. *)
Theorem C101_unknown {N A T} `{EqDecision N, EqDecision T} (ty : A → T) cast np_array (eqb : A → A → bool)
    m columns (t : list (N * column A T)) n :
  n ∉ map fst t → columns = OneName n ∨ (∃ l, columns = Names l ∧ n ∈ l) →
  ∃ e, table_replace ty cast np_array eqb m columns t = (t, Some e) ∧ (e = TypeError ∨ e = ValueError).
Proof. exact (table_replace_unknown ty cast np_array eqb m columns t n). Qed.
Example C101_unknown_case :
  table_replace (N:=Z) cty np_cast np_array_of ceqb [(CInt 1, CInt 2)] (Names [5; 6]) [(5, [new_page cty [CInt 1]])] =
    ([(5, [new_page cty [CInt 1]])], Some ValueError).
Proof. by vm_compute. Qed.
Print Assumptions C101_unknown.

(** With an exception or without, all columns keep their pages' lengths. *)
Theorem C101_lengths {N A T} `{EqDecision N, EqDecision T} (ty : A → T) cast np_array (eqb : A → A → bool)
    m columns (t : list (N * column A T)) :
  NoDup (map fst t) →
  Forall2 (λ x y : N * column A T, x.1 = y.1 ∧ map plen y.2 = map plen x.2) t (table_replace ty cast np_array eqb m columns t).1.
Proof. exact (table_replace_kept ty cast np_array eqb m columns t). Qed.
Example C101_lengths_case :
  table_replace (N:=Z) cty np_cast np_array_of ceqb [(CInt 1, CStr "x")] (Names [5; 6])
    [(5, [new_page cty [CInt 2]; new_page cty [CInt 1; CInt 3]]); (6, [new_page cty [CInt 1]])] =
    ([(5, [new_page cty [CInt 2]; new_page cty [CInt 1; CInt 3]]); (6, [new_page cty [CInt 1]])], Some ValueError).
Proof. by vm_compute. Qed.
Print Assumptions C101_lengths.

(** A name that is given twice is replaced twice: 1 becomes 3 by {1: 2, 2: 3}. *)
Theorem C101_twice_refuted :
  ∃ m ns (t t' : list (Z * column cell ctype)), NoDup (map fst t) ∧ (∀ n, n ∈ ns → n ∈ map fst t) ∧
    table_replace cty np_cast np_array_of ceqb m (Names ns) t = (t', None) ∧
    map (col_iter ∘ snd) t' ≠ map (map (subst_value ceqb m) ∘ col_iter ∘ snd) t.
Proof. exact replace_twice. Qed.
Print Assumptions C101_twice_refuted.

(** If a value cannot be stored, the columns before it are changed already when the exception is raised. *)
Theorem C101_half_refuted :
  ∃ m (t t' : list (Z * column cell ctype)) e, NoDup (map fst t) ∧
    table_replace cty np_cast np_array_of ceqb m AllColumns t = (t', Some e) ∧
    map (col_iter ∘ snd) t' ≠ map (col_iter ∘ snd) t.
Proof. exact replace_half. Qed.
Print Assumptions C101_half_refuted.
