(** C97: a table written as SQL. *)
From Coq Require Import String.
From Verif.Model Require Import ColumnOps ToSql.
From Verif.Proof Require Import ColumnFinal SqlScript.
Local Open Scope string_scope.
Local Open Scope list_scope.
Local Open Scope Z_scope.

(** For the examples: ASCII is printable, one and a half for any float, [ORDER] is reserved. *)
Definition ascii_printable (c : Z) : bool := (32 <=? c) && (c <? 127).
Definition a_float (_ : Z) : list Z := chars "1.5".
Definition order_only (w : list Z) : bool := bool_decide (w = chars "ORDER").
Definition sql_example (cols : list (string * list cell)) : table string cell kind := map (λ c, (c.1, col_new kind_of 2 c.2)) cols.

(** C97: the script of [to_sql] makes a table of the given name with the columns of the table, their types, and all rows,
    each cell the value of SQL that stands for it, None for NULL.  It is always read.  False:
    - None is written as the text [NULL];
    - a table of one column is not read (the row is [(1,)]), nor one without rows;
    - a date is not read, nor a text with a quote in it;
    - a backslash is doubled. *)
Theorem C97_none_refuted : ∃ t text q, rows CNone (contents t) = [[CInt 1; CNone]] ∧
  to_sql ascii_printable a_float t (chars "t") = Ok text ∧ read_script order_only text = Some q ∧ q_rows q = [[SqlInt 1; SqlText (chars "NULL")]].
Proof. exists (sql_example [("a", [CInt 1]); ("b", [CNone])]). do 2 eexists. split; [by vm_compute|]. split; [by vm_compute|]. by split; [vm_compute|]. Qed.
Print Assumptions C97_none_refuted.

Theorem C97_single_refuted reserved printable fshow (t : table string cell kind) name : python_printable printable →
  identifier reserved name ∧ Forall (λ n, identifier reserved (chars n)) t.*1 ∧
  Forall (λ c, counts_exactly (col_types c.2) (map kind_of (col_iter c.2))) t →
  length t = 1%nat → rows CNone (contents t) ≠ [] → Forall (Forall (same_or_none printable fshow)) (rows CNone (contents t)) →
  ∃ text, to_sql printable fshow t name = Ok text ∧ read_script reserved text = None.
Proof. exact (λ Hp, single_fails reserved printable fshow Hp t name). Qed.
Example C97_single_case :
  to_sql ascii_printable a_float (sql_example [("a", [CInt 1; CInt 2])]) (chars "t")
  = Ok (chars "begin; CREATE TABLE t (a INTEGER); INSERT INTO t VALUES (1,),(2,); commit;").
Proof. by vm_compute. Qed.
Print Assumptions C97_single_refuted.

Theorem C97_no_rows_refuted reserved printable fshow (t : table string cell kind) name :
  identifier reserved name ∧ Forall (λ n, identifier reserved (chars n)) t.*1 ∧
  Forall (λ c, counts_exactly (col_types c.2) (map kind_of (col_iter c.2))) t →
  t ≠ [] → rows CNone (contents t) = [] →
  ∃ text, to_sql printable fshow t name = Ok text ∧ read_script reserved text = None.
Proof. exact (empty_fails reserved printable fshow t name). Qed.
Example C97_no_rows_case :
  to_sql ascii_printable a_float (sql_example [("a", []); ("b", [])]) (chars "t")
  = Ok (chars "begin; CREATE TABLE t (a TEXT, b TEXT); INSERT INTO t VALUES ; commit;").
Proof. by vm_compute. Qed.
Print Assumptions C97_no_rows_refuted.

Theorem C97_values_refuted :
  (∃ text, to_sql ascii_printable a_float (sql_example [("a", [CInt 1]); ("b", [CDate (Ymd 2024 1 31)])]) (chars "t") = Ok text ∧ read_script order_only text = None) ∧
  (∃ text, to_sql ascii_printable a_float (sql_example [("a", [CInt 1]); ("b", [CStr (chars "it's")])]) (chars "t") = Ok text ∧ read_script order_only text = None) ∧
  (∃ text q, to_sql ascii_printable a_float (sql_example [("a", [CInt 1]); ("b", [CStr (chars "C:\x")])]) (chars "t") = Ok text ∧ read_script order_only text = Some q ∧
     q_rows q = [[SqlInt 1; SqlText (chars "C:\\x")]]) ∧
  (∃ text, to_sql ascii_printable a_float (sql_example [("order", [CInt 1]); ("b", [CInt 2])]) (chars "t") = Ok text ∧ read_script order_only text = None).
Proof.
  split; [eexists; split; [by vm_compute|by vm_compute]|]. split; [eexists; split; [by vm_compute|by vm_compute]|].
  split; [do 2 eexists; split; [by vm_compute|]; split; [by vm_compute|done]|]. eexists; split; [by vm_compute|by vm_compute].
Qed.
Print Assumptions C97_values_refuted.

(** Two columns or more, a row or more, names that are words, whose capitals differ, cells that are None, booleans, ints, floats
    (neither infinite nor nan) and texts of printable characters without apostrophe and backslash.  The type
    counts are exact (C13).  Missing: None, which is read as a text. *)
Theorem C97_script_partial reserved printable fshow (t : table string cell kind) name : python_printable printable →
  identifier reserved name ∧ Forall (λ n, identifier reserved (chars n)) t.*1 ∧
  Forall (λ c, counts_exactly (col_types c.2) (map kind_of (col_iter c.2))) t →
  NoDup (map (λ n, capitals (chars n)) t.*1) → (2 <= length t)%nat → rows CNone (contents t) ≠ [] →
  Forall (Forall (same_or_none printable fshow)) (rows CNone (contents t)) →
  ∃ text q, to_sql printable fshow t name = Ok text ∧
    read_script reserved text = Some (SqlTable name (sql_columns (contents t)) q) ∧
    Forall2 (Forall2 (null_as_text fshow)) (rows CNone (contents t)) q.
Proof. exact (λ Hp, to_sql_read reserved printable fshow Hp t name). Qed.
Example C97_script_case :
  let t := sql_example [("a", [CInt 7; CInt (-20)]); ("b_2", [CStr (chars "x, y"); CStr []]); ("C", [CFloat 0; CBool true])] in
  to_sql ascii_printable a_float t (chars "t")
  = Ok (chars "begin; CREATE TABLE t (a INTEGER, b_2 TEXT, C TEXT); INSERT INTO t VALUES (7, 'x, y', 1.5),(-20, '', True); commit;") ∧
  identifier order_only (chars "t") ∧ Forall (λ n, identifier order_only (chars n)) t.*1 ∧
  Forall (λ c, counts_exactly (col_types c.2) (map kind_of (col_iter c.2))) t ∧
  Forall (Forall (same_or_none ascii_printable a_float)) (rows CNone (contents t)) ∧ python_printable ascii_printable.
Proof.
  cbn zeta. assert (∀ w, match w with [] => false | c :: w => starts_word c && forallb in_word w end && negb (order_only (capitals w)) = true → identifier order_only w) as I.
  { intros [|c w] H; [done|]. apply andb_true_iff in H as [[H1 H2]%andb_true_iff H3%negb_true_iff]. split; [|done]. exists c, w. split; [done|]. split; [done|].
    apply list.Forall_forall. intros x Hx%elem_of_list_In. rewrite forallb_forall in H2. by apply H2. }
  split; [by vm_compute|]. split; [by apply I|]. split; [repeat constructor; by apply I|]. split.
  { apply list.Forall_forall. intros c (x & -> & _)%elem_of_list_fmap. cbn [snd].
    apply (built_counts kind_of (λ _ v, Ok v) 2 (λ _, False)); [done|constructor]. }
  split.
  { assert (same_or_none ascii_printable a_float (CFloat 0)) by (right; exists [], (chars "1"), (chars "5"), []; split; [by left|]; split; [done|]; split; [repeat constructor; done|];
      split; [repeat constructor; done|]; split; [by left|]; split; [by left|done]).
    assert (same_or_none ascii_printable a_float (CStr (chars "x, y"))) by (right; repeat constructor; done).
    assert (same_or_none ascii_printable a_float (CStr [])) by (right; constructor).
    constructor; [|constructor; [|constructor]]; (constructor; [by right|]); (constructor; [done|]); (constructor; [done || by right|constructor]). }
  intros c. unfold ascii_printable. rewrite andb_true_iff, Z.leb_le, Z.ltb_lt. lia.
Qed.
Print Assumptions C97_script_partial.

(** A text in the script is read as this text exactly if it is plain. *)
Theorem C97_text printable s : python_printable printable → tokens Between (repr_str printable s) = Some [Text s] ↔ plain_text printable s.
Proof. exact (λ Hp, text_read printable Hp s). Qed.
Example C97_text_case : repr_str ascii_printable (chars "it's") = [34] ++ chars "it's" ++ [34] ∧ repr_str ascii_printable [97; 0; 8364] = chars "'a\x00\u20ac'".
Proof. by vm_compute. Qed.
Print Assumptions C97_text.
