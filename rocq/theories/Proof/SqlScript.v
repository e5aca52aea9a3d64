(** The whole script of [to_sql]. *)
From Coq Require Import String.
From Verif.Model Require Import ToSql.
From Coq Require Import ZifyBool.
From Verif.Proof Require Import TableBase SqlProofs.
Local Open Scope string_scope.
Local Open Scope list_scope.
Local Open Scope Z_scope.

(** ** Types *)
Lemma dtype_spec d l : counts_exactly d (map kind_of l) → dtype_of d = sql_type l.
Proof.
  intros [Hnd H].
  assert (∀ k n, (k, n) ∈ d → ∃ c, c ∈ l ∧ kind_of c = k) as Hsome.
  { intros k n Hk. apply H in Hk as [Hn ->]. unfold count_if in Hn.
    destruct (filter (λ k', k' = k) (map kind_of l)) as [|k' f] eqn:E; [cbn in Hn; lia|].
    assert (k' ∈ filter (λ k', k' = k) (map kind_of l)) as Hin by (rewrite E; left).
    apply elem_of_list_filter in Hin as [-> (c & -> & Hc)%elem_of_list_fmap]. by exists c. }
  assert (∀ c, c ∈ l → ∃ n, (kind_of c, n) ∈ d) as Hall.
  { intros c Hc. eexists. apply H. split; [|done]. unfold count_if.
    assert (kind_of c ∈ filter (λ k', k' = kind_of c) (map kind_of l)) as Hin.
    { apply elem_of_list_filter. split; [done|]. apply elem_of_list_fmap. by exists c. }
    destruct (filter _ _); [by apply elem_of_nil in Hin|cbn; lia]. }
  assert (∀ k, (∃ n, d = [(k, n)]) ↔ l ≠ [] ∧ Forall (λ c, kind_of c = k) l) as Hone.
  { intros k. split.
    - intros [n ->]. split.
      + destruct (Hsome k n) as (c & Hc & _); [left|]. intros ->. by apply elem_of_nil in Hc.
      + apply list.Forall_forall. intros c Hc. destruct (Hall c Hc) as [m [= -> ->]%elem_of_list_singleton]. done.
    - intros [Hne Hk]. rewrite list.Forall_forall in Hk. destruct l as [|c0 l0] eqn:El; [done|]. rewrite <- El in *.
      destruct (Hall c0) as [n Hn]; [rewrite El; left|]. rewrite (Hk c0) in Hn by (rewrite El; left).
      assert (∀ e, e ∈ d → e = (k, n)) as Hu.
      { intros [k' n'] He. destruct (Hsome _ _ He) as (c & Hc & <-). rewrite (Hk c Hc) in *. f_equal. apply H in He as [_ ->], Hn as [_ ->]. done. }
      exists n. destruct d as [|e d]; [by apply elem_of_nil in Hn|]. rewrite (Hu e) by left. f_equal. destruct d as [|e' d]; [done|].
      exfalso. apply list.NoDup_cons in Hnd as [Hnd _]. apply Hnd. rewrite (Hu e), (Hu e'); [left|by right; left|left]. }
  unfold sql_type.
  destruct (decide (l ≠ [] ∧ Forall (λ c, kind_of c = KInt) l)) as [Hi|Hi].
  { apply Hone in Hi as [n ->]. done. }
  destruct (decide (l ≠ [] ∧ Forall (λ c, kind_of c = KFloat) l)) as [Hf|Hf].
  { apply Hone in Hf as [n ->]. done. }
  rewrite <- Hone in Hi, Hf. unfold dtype_of. destruct d as [|[k n] [|e d]]; [done| |by destruct k].
  destruct k; try done; [exfalso; apply Hi; by eexists|exfalso; apply Hf; by eexists].
Qed.

Lemma reads_sep e s1 l1 s2 l2 : e = 41 ∨ e = 44 ∨ e = 59 → reads s1 l1 → reads s2 l2 → reads (s1 ++ e :: s2) (l1 ++ Sign e :: l2).
Proof.
  intros He H1 H2. apply reads_app; [|done|].
  - destruct He as [->|[->| ->]]; unfold ends; tauto.
  - apply reads_sign; [|done]. destruct He as [->|[->| ->]]; rewrite !elem_of_cons; tauto.
Qed.
Lemma reads_blank s1 l1 s2 l2 : reads s1 l1 → reads s2 l2 → reads (s1 ++ 32 :: s2) (l1 ++ l2).
Proof. intros H1 H2. apply reads_app; [by left|done|]. by apply reads_space. Qed.

Section Script.
  Context (reserved : list Z → bool) (printable : Z → bool) (fshow : Z → list Z).

  Lemma reads_identifier w : identifier reserved w → reads w [Word w].
  Proof. intros [(c & w' & -> & H1 & H2) _]. by apply reads_word. Qed.

  Definition kw (s : string) : token := Word (chars s).
  Definition col_tokens (c : string * column cell kind) : list token := [Word (chars c.1); Word (sql_type (col_iter c.2))].
  Definition script_tokens (name : list Z) (t : table string cell kind) (rs : list (list token)) : list token :=
    kw "begin" :: Sign 59 :: kw "CREATE" :: kw "TABLE" :: Word name :: Sign 40 :: tok_join (map col_tokens t) ++
    Sign 41 :: Sign 59 :: kw "INSERT" :: kw "INTO" :: Word name :: kw "VALUES" :: tok_join rs ++
    [Sign 59; kw "commit"; Sign 59].

  Definition fine (t : table string cell kind) (name : list Z) : Prop :=
    identifier reserved name ∧ Forall (λ n, identifier reserved (chars n)) t.*1 ∧
    Forall (λ c, counts_exactly (col_types c.2) (map kind_of (col_iter c.2))) t.

  Lemma reads_kw s : match chars s with [] => false | c :: w => starts_word c && forallb in_word w end = true → reads (chars s) [kw s].
  Proof.
    unfold kw. destruct (chars s) as [|c w]; [done|]. intros [H1 H2]%andb_true_iff. apply reads_word; [done|].
    apply list.Forall_forall. intros x Hx%elem_of_list_In. rewrite forallb_forall in H2. by apply H2.
  Qed.
  Lemma reads_definition c : identifier reserved (chars c.1) → counts_exactly (col_types c.2) (map kind_of (col_iter c.2)) →
    reads (definition c) (col_tokens c).
  Proof.
    intros Hi Hc. unfold definition, col_tokens. rewrite (dtype_spec _ _ Hc), chars_of.
    change (bytes_of " " ++ sql_type (col_iter c.2)) with (32 :: sql_type (col_iter c.2)).
    apply (reads_blank _ [Word (chars c.1)] _ [Word (sql_type (col_iter c.2))]); [by apply reads_identifier|].
    unfold sql_type. destruct (decide _); [by apply (reads_kw "INTEGER")|]. destruct (decide _); [by apply (reads_kw "REAL")|by apply (reads_kw "TEXT")].
  Qed.

  Lemma script_spec t name ss ls : fine t name → Forall2 reads ss ls →
    tokens Between (bytes_of "begin; " ++ create_table name t ++ bytes_of "; " ++
      (bytes_of "INSERT INTO " ++ name ++ bytes_of " VALUES " ++ plain_join ss) ++ bytes_of "; commit;")
    = Some (script_tokens name t ls).
  Proof.
    intros (Hn & Hi & Hc) Hs. unfold create_table.
    assert (reads (comma_join (map definition t)) (tok_join (map col_tokens t))) as Rc.
    { apply reads_comma_join. clear -Hi Hc. induction t as [|c t IH]; [constructor|]. cbn in Hi. apply list.Forall_cons in Hi as [Hi1 Hi2].
      apply list.Forall_cons in Hc as [Hc1 Hc2]. constructor; [by apply reads_definition|by apply IH]. }
    pose proof (reads_plain_join _ _ Hs) as Rs. pose proof (reads_identifier _ Hn) as Rn.
    set (C := comma_join _) in *. set (P := plain_join _) in *. set (LC := tok_join (map col_tokens t)) in *.
    match goal with |- tokens Between ?x = _ =>
      replace x with ((chars "begin" ++ 59 :: 32 :: (chars "CREATE" ++ 32 :: (chars "TABLE" ++ 32 :: (name ++ 32 :: 40 :: (C ++ 41 :: ([] ++ 59 :: 32 :: (chars "INSERT" ++ 32 ::
        (chars "INTO" ++ 32 :: (name ++ 32 :: (chars "VALUES" ++ 32 :: (P ++ 59 :: 32 :: chars "commit"))))))))))) ++ [59])
    end.
    2: { cbn [bytes_of chars app]. by repeat (rewrite <- ?app_assoc; cbn [app]). }
    erewrite reads_all; cycle 1.
    { apply reads_sep; [tauto|by apply (reads_kw "begin")|]. apply reads_space, reads_blank; [by apply (reads_kw "CREATE")|].
      apply reads_blank; [by apply (reads_kw "TABLE")|]. apply reads_blank; [exact Rn|].
      apply reads_sign; [set_solver|]. apply reads_sep; [tauto|exact Rc|]. apply reads_sep; [tauto|apply reads_nil|].
      apply reads_space, reads_blank; [by apply (reads_kw "INSERT")|]. apply reads_blank; [by apply (reads_kw "INTO")|]. apply reads_blank; [exact Rn|].
      apply reads_blank; [by apply (reads_kw "VALUES")|]. apply reads_sep; [tauto|exact Rs|]. apply reads_space. by apply (reads_kw "commit"). }
    f_equal. unfold script_tokens. cbn [app]. by repeat (rewrite <- ?app_assoc; cbn [app]).
  Qed.

  (** ** Reading *)
  Definition rest_of (name : list Z) (columns : list (list Z * list Z)) (r : option (list (list sql) * list token)) : option sql_table :=
    '(rows, l) ← r;
    l ← expect_words ["COMMIT"%string] l; l ← expect_sign 59 l;
    if decide (l = [] ∧ capitals name = capitals name ∧ NoDup (map capitals columns.*1)
               ∧ Forall (λ r : list sql, length r = length columns) rows)
    then Some (SqlTable name columns rows) else None.
  Lemma capital_type l : capitals (sql_type l) = sql_type l.
  Proof. unfold sql_type. destruct (decide _); [done|]. by destruct (decide _). Qed.

  Lemma read_script_tokens text t name ls : fine t name → t ≠ [] → tokens Between text = Some (script_tokens name t ls) →
    read_script reserved text = rest_of name (sql_columns (contents t))
      (read_list read_row 59 (length (tok_join ls ++ [Sign 59; kw "commit"; Sign 59])) (tok_join ls ++ [Sign 59; kw "commit"; Sign 59])).
  Proof.
    intros (Hn & Hi & _) Hne Ht. unfold read_script. rewrite Ht. unfold script_tokens. cbn [mbind option_bind].
    set (R := tok_join ls ++ _). set (B := Sign 41 :: _).
    change (expect_words ["BEGIN"] _) with (Some (Sign 59 :: kw "CREATE" :: kw "TABLE" :: Word name :: Sign 40 :: tok_join (map col_tokens t) ++ B)).
    cbn [mbind option_bind expect_sign Z.eqb Pos.eqb].
    change (expect_words ["CREATE"; "TABLE"] _) with (Some (Word name :: Sign 40 :: tok_join (map col_tokens t) ++ B)).
    cbn [mbind option_bind read_name]. destruct Hn as [_ Hr]. rewrite Hr. cbn [expect_sign Z.eqb Pos.eqb mbind option_bind].
    assert (read_list (read_column reserved) 41 (length (tok_join (map col_tokens t) ++ B)) (tok_join (map col_tokens t) ++ B) =
      Some (sql_columns (contents t), Sign 59 :: kw "INSERT" :: kw "INTO" :: Word name :: kw "VALUES" :: R)) as ->.
    { subst B. unfold sql_columns, contents. rewrite map_map. cbn [fst snd]. apply read_list_spec; [lia|done| |].
      - rewrite app_length. pose proof (tok_join_length col_tokens t). cbn [length]. lia.
      - intros c Hc l. cbn [col_tokens app read_column]. rewrite list.Forall_forall in Hi.
        destruct (Hi c.1) as [_ ->]; [apply elem_of_list_fmap; by exists c|]. by rewrite capital_type. }
    cbn [mbind option_bind expect_sign Z.eqb Pos.eqb].
    change (expect_words ["INSERT"; "INTO"] _) with (Some (Word name :: kw "VALUES" :: R)). cbn [mbind option_bind read_name]. rewrite Hr. done.
  Qed.

  (** no rows *)
  Lemma empty_fails t name : fine t name → t ≠ [] → rows CNone (contents t) = [] →
    ∃ text, to_sql printable fshow t name = Ok text ∧ read_script reserved text = None.
  Proof.
    intros Hf Hne Hr. unfold to_sql. rewrite tbl_rows_spec, Hr. cbn [res_map map]. eexists. split; [done|].
    erewrite read_script_tokens; [|done|done|by apply (script_spec t name [] []); [|constructor]]. done.
  Qed.

  (** ** Rows *)
  Context (Hp : python_printable printable).
  Definition written (c : cell) : cell := match c with CNone => CStr (bytes_of "NULL") | _ => c end.
  Definition row_tokens (r : list cell) : list token := Sign 40 :: tok_join (map (λ c, cell_tokens fshow (written c)) r) ++ [Sign 41].
  Local Notation value_read := (null_as_text fshow).
  Local Notation readable := (same_or_none printable fshow).
  Definition value_of (c : cell) : sql := default SqlNull (sql_of fshow (written c)).

  Lemma printable_32 c : printable c = true → 32 <= c.
  Proof using Hp. apply Hp. Qed.
  Lemma written_same c : readable c → same_in_sql printable fshow (written c).
  Proof using Hp.
    intros [->|H]; [|by destruct c]. change (plain_text printable [78; 85; 76; 76]). unfold plain_text. repeat (constructor; [split; [apply (proj1 (Hp _)); lia|lia]|]). constructor.
  Qed.
  Lemma value_of_read c : readable c → value_read c (value_of c) ∧ sql_of fshow (written c) = Some (value_of c).
  Proof using Hp. intros [->|H]; [done|]. unfold null_as_text, value_of. destruct c; done. Qed.
  Lemma reads_row r : (2 <= length r)%nat → Forall readable r → reads (row_insert printable fshow r) (row_tokens r).
  Proof using Hp.
    intros Hl Hr. unfold row_insert, str_tuple. change (λ i, match i with CNone => CStr (bytes_of "NULL") | _ => i end) with written.
    rewrite map_length, decide_False by lia. cbn [bytes_of app]. unfold row_tokens.
    apply reads_sign; [set_solver|]. change ([Sign 41]) with (Sign 41 :: @nil token). apply (reads_sep 41); [tauto| |apply reads_nil].
    apply reads_comma_join. rewrite map_map. clear Hl. induction Hr as [|c r Hc Hr IH]; [constructor|]. cbn [map]. constructor; [|done].
    apply reads_cell; [apply printable_32|by apply written_same].
  Qed.
  Lemma read_row_spec r l : r ≠ [] → Forall readable r → read_row (row_tokens r ++ l) = Some (map value_of r, l).
  Proof using Hp.
    intros Hne Hr. unfold row_tokens. cbn [app read_row Z.eqb Pos.eqb]. rewrite <- app_assoc. cbn [app].
    apply read_list_spec; [lia|done| |].
    - rewrite app_length. pose proof (tok_join_length (λ c, cell_tokens fshow (written c)) r). cbn [length]. lia.
    - intros c Hc l'. rewrite list.Forall_forall in Hr. apply (value_cell printable); [apply written_same; by apply Hr|]. by apply value_of_read, Hr.
  Qed.

  Lemma rows_shape (t : table string cell kind) r : r ∈ rows CNone (contents t) → length r = length t.
  Proof. unfold rows. intros (i & -> & _)%elem_of_list_fmap. unfold row, contents. by rewrite !map_length. Qed.

  Lemma to_sql_read t name : fine t name → NoDup (map (λ n, capitals (chars n)) t.*1) → (2 <= length t)%nat → rows CNone (contents t) ≠ [] →
    Forall (Forall readable) (rows CNone (contents t)) →
    ∃ text q, to_sql printable fshow t name = Ok text ∧
      read_script reserved text = Some (SqlTable name (sql_columns (contents t)) q) ∧ Forall2 (Forall2 value_read) (rows CNone (contents t)) q.
  Proof using Hp.
    intros Hf Hnd H2 Hne Hr. unfold to_sql. rewrite tbl_rows_spec. cbn [res_map]. eexists _, (map (map value_of) (rows CNone (contents t))).
    split; [done|]. pose proof (rows_shape t) as Hshape. set (rs := rows CNone (contents t)) in *.
    assert (Forall2 reads (map (row_insert printable fshow) rs) (map row_tokens rs)) as HF.
    { clear Hne. induction Hr as [|r rs' Hr1 Hr2 IH]; [constructor|]. cbn [map]. constructor.
      - apply reads_row; [|done]. rewrite Hshape by left. done.
      - apply IH. intros r' Hr'. apply Hshape. by right. }
    split.
    - erewrite read_script_tokens; [|done|by destruct t; [cbn in H2; lia|]|by apply script_spec].
      change [Sign 59; kw "commit"; Sign 59] with (Sign 59 :: [kw "commit"; Sign 59]).
      rewrite (read_list_spec read_row row_tokens (map value_of)); [|lia|done| |].
      + unfold rest_of. cbn [mbind option_bind]. change (expect_words ["COMMIT"] _) with (Some [Sign 59]). cbn [mbind option_bind expect_sign Z.eqb Pos.eqb].
        rewrite decide_True; [done|]. split; [done|]. split; [done|]. split.
        * unfold sql_columns, contents. rewrite <- !list_fmap_compose. rewrite <- list_fmap_compose in Hnd. exact Hnd.
        * apply list.Forall_forall. intros r (r' & -> & Hr')%elem_of_list_fmap. unfold sql_columns, contents. rewrite !map_length. by apply Hshape.
      + rewrite app_length. pose proof (tok_join_length row_tokens rs). cbn [length]. lia.
      + intros r Hin l. apply read_row_spec.
        * intros ->. apply Hshape in Hin. cbn in Hin. lia.
        * rewrite list.Forall_forall in Hr. by apply Hr.
    - clear Hne HF Hshape. induction Hr as [|r rs' Hr1 Hr2 IH]; [constructor|]. cbn [map]. constructor; [|done].
      clear IH Hr2. induction Hr1 as [|c r Hc Hr IH]; [constructor|]. constructor; [by apply value_of_read|done].
  Qed.

  (** one column *)
  Lemma single_fails t name : fine t name → length t = 1%nat → rows CNone (contents t) ≠ [] → Forall (Forall readable) (rows CNone (contents t)) →
    ∃ text, to_sql printable fshow t name = Ok text ∧ read_script reserved text = None.
  Proof using Hp.
    intros Hf H1 Hne Hr. unfold to_sql. rewrite tbl_rows_spec. cbn [res_map]. eexists. split; [done|].
    pose proof (rows_shape t) as Hshape. rewrite H1 in Hshape. set (rs := rows CNone (contents t)) in *.
    pose (toks := λ r : list cell, Sign 40 :: tok_join (map (λ c, cell_tokens fshow (written c)) r) ++ [Sign 44; Sign 41]).
    assert (Forall2 reads (map (row_insert printable fshow) rs) (map toks rs)) as HF.
    { clear Hne. induction Hr as [|r rs' Hr1 Hr2 IH]; [constructor|]. cbn [map]. constructor; [|apply IH; intros r' Hr'; apply Hshape; by right].
      assert (length r = 1%nat) as Hl by (apply Hshape; left). clear IH. destruct r as [|c [|]]; try done. apply list.Forall_cons in Hr1 as [Hc _].
      unfold row_insert, str_tuple. change (λ i, match i with CNone => CStr (bytes_of "NULL") | _ => i end) with written. cbn [map length].
      rewrite decide_True by done. subst toks. cbn [bytes_of app map tok_join comma_join]. apply reads_sign; [set_solver|].
      apply (reads_sep 44); [tauto| |].
      - apply reads_cell; [apply printable_32|by apply written_same].
      - apply (reads_sep 41 [] [] [] []); [tauto|apply reads_nil|apply reads_nil]. }
    erewrite read_script_tokens; [|done|by destruct t|by apply script_spec].
    assert (∀ n, read_list read_row 59 n (tok_join (map toks rs) ++ [Sign 59; kw "commit"; Sign 59]) = None) as ->; [|done].
    intros n. destruct n as [|n]; [done|]. cbn [read_list]. destruct rs as [|r rs']; [done|]. assert (length r = 1%nat) as Hl by (apply Hshape; left).
    destruct r as [|c [|]]; try done. apply list.Forall_cons in Hr as [[Hc _]%list.Forall_cons _].
    assert (∃ e tail, tok_join (map toks ([c] :: rs')) ++ [Sign 59; kw "commit"; Sign 59] = Sign 40 :: cell_tokens fshow (written c) ++ Sign 44 :: Sign 41 :: Sign e :: tail) as (e & tail & ->).
    { destruct rs' as [|r' rs'].
      - eexists _, _. cbn [map tok_join toks app]. rewrite <- app_assoc. cbn [app]. done.
      - eexists _, _. cbn [map]. change (tok_join (toks [c] :: toks r' :: map toks rs')) with (toks [c] ++ Sign 44 :: tok_join (toks r' :: map toks rs')).
        unfold toks at 1. cbn [map tok_join app]. repeat (rewrite <- ?app_assoc; cbn [app]). done. }
    cbn [read_row Z.eqb Pos.eqb]. set (L := cell_tokens _ _ ++ _). assert (∀ m, read_list read_value 41 m L = None) as ->; [|done].
    intros m. destruct m as [|m]; [done|]. cbn [read_list]. subst L.
    rewrite (value_cell printable fshow (written c) (value_of c)); [|by apply written_same|by apply value_of_read]. cbn [Z.eqb Pos.eqb].
    destruct m as [|m]; [done|]. cbn [read_list read_value]. done.
  Qed.
End Script.

(** ** Texts *)
Section Texts.
  Context (printable : Z → bool) (Hp : python_printable printable).
  Lemma escape_plain c : printable c = true ∧ c ≠ 39 ∧ c ≠ 92 → escape printable 39 c = [c].
  Proof using Hp.
    intros (H1 & H2 & H3). pose proof (printable_32 printable Hp c H1). unfold escape.
    assert (((c =? 39) || (c =? 92)) = false) as -> by lia. assert ((c =? 9) = false) as -> by lia. assert ((c =? 10) = false) as -> by lia.
    assert ((c =? 13) = false) as -> by lia. by rewrite H1.
  Qed.
  Lemma escape_long c : (1 <= length (escape printable 39 c))%nat ∧ (¬ (printable c = true ∧ c ≠ 39 ∧ c ≠ 92) → (2 <= length (escape printable 39 c))%nat).
  Proof using Hp.
    unfold escape. destruct ((c =? 39) || (c =? 92)) eqn:E1; [cbn; lia|]. destruct (c =? 9); [cbn; lia|]. destruct (c =? 10); [cbn; lia|]. destruct (c =? 13); [cbn; lia|].
    destruct (printable c) eqn:E2; [cbn; split; [lia|]; intros []; split; [done|lia]|].
    destruct (c <? 256); [rewrite app_length; cbn; lia|]. destruct (c <? 65536); rewrite app_length; cbn; lia.
  Qed.
  Lemma hex_39 k n : 39 ∉ hex k n.
  Proof.
    revert n. induction k as [|k IH]; intros n; [by apply not_elem_of_nil|]. cbn [hex]. rewrite elem_of_app, elem_of_list_singleton. intros [H|H]; [by eapply IH|].
    unfold hex_digit in H. pose proof (Z.mod_pos_bound n 16). destruct (n mod 16 <? 10) eqn:E; lia.
  Qed.
  Lemma escape_39 c : c ≠ 39 → 39 ∉ escape printable 39 c.
  Proof.
    intros Hc. assert (∀ s, existsb (Z.eqb 39) s = false → 39 ∉ s) as L.
    { intros s Hs Hin. apply not_true_iff_false in Hs. apply Hs, existsb_exists. exists 39. split; [by apply elem_of_list_In|done]. }
    assert (∀ s k, existsb (Z.eqb 39) s = false → 39 ∉ s ++ hex k c) as Lh.
    { intros s k Hs [H|H]%elem_of_app; [by eapply L|by eapply hex_39]. }
    unfold escape. destruct ((c =? 39) || (c =? 92)) eqn:E; [apply L; cbn [existsb]; lia|].
    destruct (c =? 9); [by apply L|]. destruct (c =? 10); [by apply L|]. destruct (c =? 13); [by apply L|].
    destruct (printable c); [apply L; cbn [existsb]; lia|]. destruct (c <? 256); [by apply Lh|]. destruct (c <? 65536); by apply Lh.
  Qed.
  Lemma escapes_length s : (length s <= length (concat (map (escape printable 39) s)))%nat ∧
    (¬ plain_text printable s → (length s < length (concat (map (escape printable 39) s)))%nat).
  Proof using Hp.
    unfold plain_text. induction s as [|c s [IH1 IH2]]; [split; [done|]; intros []; constructor|]. cbn [map concat]. rewrite app_length. cbn [length].
    destruct (escape_long c) as [L1 L2]. split; [lia|]. intros Hn. rewrite list.Forall_cons in Hn.
    destruct (decide (printable c = true ∧ c ≠ 39 ∧ c ≠ 92)) as [Hc|Hc]; [|specialize (L2 Hc); lia].
    assert (¬ Forall (λ c, printable c = true ∧ c ≠ 39 ∧ c ≠ 92) s) as Hs by tauto. specialize (IH2 Hs). lia.
  Qed.
  Lemma run_text u : ∀ acc, 39 ∉ u → run (InText acc) u = Some (InText (rev u ++ acc)).
  Proof.
    induction u as [|d u IH]; intros acc H; [done|]. apply not_elem_of_cons in H as [H1 H2]. cbn [run goes_on]. assert ((d =? 39) = false) as -> by lia.
    rewrite IH by done. cbn [rev]. by rewrite <- app_assoc.
  Qed.
  (** a text token read in one piece starts with what was read of it *)
  Lemma text_prefix s : ∀ m acc t, m = InText acc ∨ m = Behind acc → tokens m s = Some [Text t] → ∃ u, t = rev acc ++ u.
  Proof.
    induction s as [|c s IH]; intros m acc t [->| ->] H.
    - done.
    - cbn in H. injection H as <-. exists []. by rewrite app_nil_r.
    - cbn [tokens goes_on] in H. destruct (c =? 39).
      + eapply IH; [|exact H]. by right.
      + destruct (IH _ (c :: acc) t (or_introl eq_refl) H) as [u ->]. exists (c :: u). cbn [rev]. by rewrite <- app_assoc.
    - cbn [tokens goes_on] in H. destruct (c =? 39).
      + destruct (IH _ (c :: acc) t (or_introl eq_refl) H) as [u ->]. exists (c :: u). cbn [rev]. by rewrite <- app_assoc.
      + cbn [pending] in H. destruct (begins c) as [[b m']|]; [|done]. destruct (tokens m' s); [|done]. cbn in H. injection H as <- _. exists []. by rewrite app_nil_r.
  Qed.

  Lemma text_read s : tokens Between (repr_str printable s) = Some [Text s] ↔ plain_text printable s.
  Proof using Hp.
    split.
    - intros H. destruct (decide (plain_text printable s)) as [|Hn]; [done|]. exfalso. unfold repr_str, quote_of in H.
      destruct (existsb (Z.eqb 39) s) eqn:Ha; cbn [andb] in H.
      + destruct (existsb (Z.eqb 34) s) eqn:Hq; cbn [negb] in H; [|done].
        apply existsb_exists in Ha as (x & Hx & E%Z.eqb_eq). subst x. apply elem_of_list_In in Hx.
        apply elem_of_list_split_l in Hx as (s1 & s2 & -> & Hs1).
        rewrite map_app, concat_app in H. cbn [map concat] in H. change (escape printable 39 39) with [92; 39] in H. cbn [app] in H.
        set (u := concat (map (escape printable 39) s1)) in *.
        assert (39 ∉ u) as Hu.
        { subst u. clear -Hs1. induction s1 as [|c s1 IH]; [by apply not_elem_of_nil|]. apply not_elem_of_cons in Hs1 as [H1 H2]. cbn [map concat]. rewrite elem_of_app.
          intros [H|H]; [by eapply escape_39|by apply IH]. }
        rewrite (tokens_begin 39 _ [] (InText [])) in H by done.
        match type of H with context [tokens (InText []) (?x)] => replace x with ((u ++ [92]) ++ 39 :: concat (map (escape printable 39) s2) ++ [39]) in H end.
        2: { by rewrite <- !app_assoc. }
        erewrite run_tokens in H by (apply run_text; rewrite elem_of_app, elem_of_list_singleton; intros [?|?]; [done|lia]).
        cbn [tokens goes_on] in H. change (39 =? 39) with true in H. cbv iota in H.
        destruct (tokens (Behind _) _) as [l|] eqn:E; [|done]. cbn in H. injection H as ->.
        eapply text_prefix in E as [v E]; [|by right]. rewrite rev_app_distr, rev_involutive in E. cbn [rev app] in E.
        destruct (escapes_length s1) as [L _]. fold u in L.
        assert ((s1 ++ 39 :: s2) !! length s1 = Some 39) as F1 by (by rewrite lookup_app_r, Nat.sub_diag by lia).
        rewrite E in F1. rewrite lookup_app_l in F1 by (rewrite app_length; cbn; lia). apply elem_of_list_lookup_2 in F1.
        apply elem_of_app in F1 as [?|?%elem_of_list_singleton]; [done|lia].
      + set (u := concat (map (escape printable 39) s)) in *.
        assert (39 ∉ u) as Hu.
        { subst u. assert (39 ∉ s) as Hs. { intros Hx. apply not_true_iff_false in Ha. apply Ha, existsb_exists. exists 39. split; [by apply elem_of_list_In|done]. }
          clear -Hs. induction s as [|c s IH]; [by apply not_elem_of_nil|]. apply not_elem_of_cons in Hs as [H1 H2]. cbn [map concat]. rewrite elem_of_app.
          intros [H|H]; [by eapply escape_39|by apply IH]. }
        rewrite (tokens_begin 39 _ [] (InText [])) in H by done. erewrite run_tokens in H by (by apply run_text). cbn in H. injection H as H.
        rewrite app_nil_r, rev_involutive in H. destruct (escapes_length s) as [_ L]. specialize (L Hn). fold u in L. rewrite H in L. lia.
    - intros H. rewrite (plain_repr printable (printable_32 printable Hp) s H). rewrite (tokens_begin 39 _ [] (InText [])) by done.
      erewrite run_tokens. 2: { apply run_text. intros Hin. unfold plain_text in H. rewrite list.Forall_forall in H. apply H in Hin. lia. }
      cbn. by rewrite app_nil_r, rev_involutive.
  Qed.
End Texts.
