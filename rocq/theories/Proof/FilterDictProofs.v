(** C95: the native filter's dictionaries *)
From Verif.Spec Require Import FilterDict.
From Verif.Model Require Import FilterDict.
From Verif.Proof Require Import SliceLemmas ColumnRead DictLemmas TableBase FilterProofs ReduxProofs.
Local Open Scope string_scope.
Local Open Scope list_scope.
Local Open Scope Z_scope.

Definition xside (s : side) : xvalue string pyval := match s with Column n => XCol n | Value v => XVal v end.
Definition xclause (c : clause) : expression string pyval := (xside c.1.1, method c.1.2, xside c.2).
Definition every_type (every : bool) : ftype := if every then FT_ALL else FT_ANY.

Lemma dget_perm {K V} `{EqDecision K} (d e : list (K * V)) k : NoDup d.*1 → d ≡ₚ e → dget d k = dget e k.
Proof.
  intros Hd Hp. revert Hd. induction Hp as [|[k1 v1] d e Hp IH|[k1 v1] [k2 v2] d|d e f H1 IH1 H2 IH2]; intros Hd; cbn.
  - done.
  - apply list.NoDup_cons in Hd as [_ Hd]. by rewrite IH.
  - apply list.NoDup_cons in Hd as [Hd _]. cbn in Hd.
    repeat case_decide; try done. subst. exfalso. apply Hd. by left.
  - rewrite IH1 by done. apply IH2. by rewrite <- (fmap_Permutation fst _ _ H1).
Qed.

Lemma says_NoDup d c : says d c → NoDup d.*1.
Proof.
  intros H. unfold says in H. apply (fmap_Permutation fst) in H. rewrite H.
  destruct c as [[[n|v] r] [m|w]]; cbn; repeat constructor; set_solver.
Qed.
Lemma says_dget d c k : says d c → dget d k = dget [("criteria", VStr (sign c.1.2)); left_entry c.1.1; right_entry c.2] k.
Proof. intros H. apply dget_perm; [by eapply says_NoDup|done]. Qed.
Lemma says_length d c : says d c → zlen d = 3.
Proof. intros H. by rewrite (Permutation_length H). Qed.
Lemma says_keys d c : says d c → forallb (λ key, bool_decide (key ∈ FILTER_KEYS)) d.*1 = true.
Proof.
  intros H. apply forallb_forall. intros k Hk%elem_of_list_In. apply bool_decide_eq_true.
  unfold says in H. apply (fmap_Permutation fst) in H. rewrite H in Hk. unfold FILTER_KEYS.
  destruct c as [[[n|v] r] [m|w]]; cbn in Hk; set_solver.
Qed.

Lemma method_of_sign r : method_of (sign r) = Some (method r).
Proof. by destruct r. Qed.
Lemma method_of_inv s m : method_of s = Some m → ∃ r, s = sign r ∧ m = method r.
Proof.
  unfold method_of. intros H. repeat (case_decide; [injection H as <-; subst s; first
    [by exists RGt|by exists RGe|by exists REq|by exists RLt|by exists RLe|by exists RNe|by exists RIn]|]). done.
Qed.

Lemma native_object_ok v : native_value v ↔ native_object v = Ok v.
Proof.
  destruct v; cbn -[Z.pow]; try (split; done).
  destruct ((- 2 ^ 63 <=? z) && (z <? 2 ^ 63)) eqn:E; [split; [done|intros _; lia]|split; [intros; lia|done]].
Qed.
Lemma native_object_inv v w : native_object v = Ok w → w = v ∧ native_value v.
Proof.
  intros H. assert (w = v) as ->.
  { destruct v; cbn -[Z.pow] in H; try congruence. destruct (_ && _) in H; congruence. }
  split; [done|]. by apply native_object_ok.
Qed.


Lemma add_expression_says columns d c : says d c → fits columns c → add_expression columns d = Ok (xclause c).
Proof.
  intros H (H1 & H2 & H3 & H4). unfold add_expression. rewrite (says_length d c H), (says_keys d c H). cbn [negb Z.eqb].
  rewrite Pos.eqb_refl. cbn [negb].
  rewrite (says_dget d c "criteria" H). cbn [dget]. rewrite decide_True by done. rewrite method_of_sign.
  unfold add_param. rewrite !(says_dget d c _ H).
  destruct c as [[l r] s]; cbn [fst snd] in *.
  assert (∀ v, native_value v → native_object v = Ok v) as Hn by (intros v; apply native_object_ok).
  destruct l as [n|v], s as [m|w]; cbn -[native_object]; cbn in H1, H2, H3, H4;
    repeat (first [rewrite decide_False by discriminate|rewrite decide_True by done|rewrite Hn by done]; cbn -[native_object]); done.
Qed.

Lemma three_entries d c : NoDup d.*1 → zlen d = 3 →
  dget d "criteria" = Some (VStr (sign c.1.2)) → left_entry c.1.1 ∈ d → right_entry c.2 ∈ d → says d c.
Proof.
  intros Hd Hl Hc H1 H2. unfold says. apply dget_Some_elem in Hc. symmetry.
  apply submseteq_Permutation_length_le; [cbn; lia|].
  apply NoDup_submseteq.
  - apply (NoDup_fmap_1 fst). destruct c as [[[n|v] r] [m|w]]; cbn; repeat constructor; set_solver.
  - intros x Hx. repeat (apply elem_of_cons in Hx as [->|Hx]; [done|]). by apply elem_of_nil in Hx.
Qed.

Lemma add_param_inv columns d cn vn x : add_param columns d cn vn = Ok x →
  ∃ s, x = xside s ∧ in_columns columns s ∧ native_side s ∧
    match s with Column n => (cn, VStr n) ∈ d | Value v => (vn, v) ∈ d end.
Proof.
  unfold add_param. destruct (dget d cn) as [c|] eqn:Hc, (dget d vn) as [v|] eqn:Hv; try done.
  - destruct c; try done. case_decide; [|done]. intros [= <-]. exists (Column s).
    split; [done|]. split; [done|]. split; [done|]. by apply dget_Some_elem.
  - destruct (native_object v) as [w|] eqn:E; [|done]. apply native_object_inv in E as [-> E]. intros H. injection H as <-.
    exists (Value v). split; [done|]. split; [done|]. split; [done|]. by apply dget_Some_elem.
Qed.

Lemma add_expression_inv columns d x : NoDup d.*1 → add_expression columns d = Ok x →
  ∃ c, says d c ∧ fits columns c ∧ x = xclause c.
Proof.
  intros Hd. unfold add_expression. destruct (Z.eqb_spec (zlen d) 3) as [Hl|]; [|done]. cbn [negb].
  destruct (negb _); [done|]. destruct (dget d "criteria") as [cr|] eqn:Hc; [|done]. destruct cr; try done.
  destruct (method_of s) as [m|] eqn:Hm; [|done]. apply method_of_inv in Hm as (r & -> & ->).
  destruct (add_param columns d "column1" "value1") as [l|] eqn:Hl1; [|done]. cbn [res_bind].
  destruct (add_param columns d "column2" "value2") as [l2|] eqn:Hl2; [|done]. cbn [res_map]. intros H. injection H as <-.
  apply add_param_inv in Hl1 as (s1 & -> & A1 & B1 & C1). apply add_param_inv in Hl2 as (s2 & -> & A2 & B2 & C2).
  exists (s1, r, s2). split; [|done].
  apply three_entries; [done|done|done| |]; [by destruct s1|by destruct s2].
Qed.

Lemma add_expressions_says columns ds cs : Forall2 says ds cs → Forall (fits columns) cs →
  add_expressions columns ds = Ok (map xclause cs).
Proof.
  induction 1 as [|d c ds cs Hd Hds IH]; intros Hf; [done|]. apply list.Forall_cons in Hf as [Hc Hf]. cbn [add_expressions map].
  rewrite (add_expression_says columns d c Hd Hc). cbn [res_bind]. by rewrite IH.
Qed.
Lemma add_expressions_inv columns ds xs : Forall (λ d, NoDup d.*1) ds → add_expressions columns ds = Ok xs →
  ∃ cs, Forall2 says ds cs ∧ Forall (fits columns) cs ∧ xs = map xclause cs.
Proof.
  revert xs. induction ds as [|d ds IH]; intros xs Hd; cbn [add_expressions].
  { intros H. injection H as <-. exists []. by split_and!. }
  apply list.Forall_cons in Hd as [Hd Hds].
  destruct (add_expression columns d) as [x|] eqn:E; [|done]. cbn [res_bind].
  destruct (add_expressions columns ds) as [xs'|] eqn:E'; [|done]. cbn [res_map]. intros H. injection H as <-.
  apply add_expression_inv in E as (c & H1 & H2 & ->); [|done]. destruct (IH xs' Hds eq_refl) as (cs & H3 & H4 & ->).
  exists (c :: cs). split; [by constructor|]. split; [by constructor|done].
Qed.

(** ** The type of the filter *)
Lemma to_lower_char (a b : Ascii.ascii) : (97 <= Ascii.N_of_ascii b <= 122)%N →
  (let n := Ascii.N_of_ascii a in if (65 <=? n)%N && (n <=? 90)%N then Ascii.ascii_of_N (n + 32) else a) = b ↔
  a = b ∨ (Ascii.nat_of_ascii a + 32 = Ascii.nat_of_ascii b)%nat.
Proof.
  intros Hb. cbn zeta. unfold Ascii.nat_of_ascii.
  destruct ((65 <=? Ascii.N_of_ascii a)%N && (Ascii.N_of_ascii a <=? 90)%N) eqn:E.
  - split.
    + intros <-. right. rewrite Ascii.N_ascii_embedding by lia. lia.
    + intros [->|H]; [lia|]. rewrite <- (Ascii.ascii_N_embedding b). f_equal. lia.
  - split; [by left|]. intros [->|H]; [done|]. lia.
Qed.
Lemma to_lower_list name w : Forall (λ b, 97 <= Ascii.N_of_ascii b <= 122)%N (String.list_ascii_of_string w) →
  to_lower name = w ↔ spelled name w.
Proof.
  intros Hw. unfold to_lower, spelled.
  set (f := λ c, let n := Ascii.N_of_ascii c in if (65 <=? n)%N && (n <=? 90)%N then Ascii.ascii_of_N (n + 32) else c).
  transitivity (map f (String.list_ascii_of_string name) = String.list_ascii_of_string w).
  { split; [intros <-; by rewrite String.list_ascii_of_string_of_list_ascii|intros ->; by rewrite String.string_of_list_ascii_of_string]. }
  generalize (String.list_ascii_of_string name) as l. generalize dependent (String.list_ascii_of_string w). clear.
  intros w Hw. induction Hw as [|b w Hb Hw IH]; intros [|a l]; cbn [map].
  - by split.
  - split; [done|]. intros H. by apply list.Forall2_cons_inv_l in H as (? & ? & _ & _ & [=]).
  - split; [done|]. intros H. by apply Forall2_nil_inv_l in H.
  - rewrite list.Forall2_cons. rewrite <- IH, <- (to_lower_char a b Hb). split; [intros H; by injection H|].
    intros [H1 H2]. f_equal; done.
Qed.
Lemma filter_type_all name : to_lower name = "all" ↔ spelled name "all".
Proof. apply to_lower_list. repeat constructor. all: done. Qed.
Lemma filter_type_any name : to_lower name = "any" ↔ spelled name "any".
Proof. apply to_lower_list. repeat constructor. all: done. Qed.

Lemma filter_type_of_spec name every : filter_type_of name = Some (every_type every) ↔ spelled name (quantifier every).
Proof.
  unfold filter_type_of. destruct every; cbn [every_type quantifier].
  - rewrite <- filter_type_all. split.
    + case_decide; [done|]. by case_decide.
    + intros ->. done.
  - rewrite <- filter_type_any. split.
    + case_decide; [done|]. by case_decide.
    + intros ->. done.
Qed.

(** ** The filter *)
Section native.
  Context {T : Type} `{EqDecision T} (ty : pyval → T) (ps : Z) (repr : pyval → string).
  Local Notation tbl := (list (string * column pyval T)).
  Local Notation test := (λ r, nim_cmp repr (method r)).

  Lemma uses_mentions cs m : uses (map xclause cs) m ↔ mentions cs m.
  Proof.
    unfold uses, mentions. split.
    - intros (x & (c & -> & Hc)%elem_of_list_fmap & H). exists c. split; [done|].
      destruct c as [[[] ?] []]; cbn in *; naive_solver congruence.
    - intros (c & Hc & H). exists (xclause c). split; [apply elem_of_list_fmap; by exists c|].
      destruct c as [[[] ?] []]; cbn in *; naive_solver congruence.
  Qed.

  Lemma satisfies_holds v every cs i :
    satisfies VNone (nim_cmp repr) v (every_type every) (map xclause cs) i = row_holds test v every cs i.
  Proof.
    unfold satisfies, row_holds. rewrite map_map.
    assert (map (λ c, nim_cmp repr (xclause c).1.2 (operand VNone v i (xclause c).1.1) (operand VNone v i (xclause c).2)) cs
      = map (clause_holds test v i) cs) as ->.
    { apply map_ext. intros [[[] ?] []]; done. }
    by destruct every.
  Qed.

  Lemma fits_mentions columns cs : Forall (fits columns) cs → ∀ m, mentions cs m → m ∈ columns.
  Proof.
    intros H m (c & Hc & Hm). rewrite list.Forall_forall in H. destruct (H c Hc) as (H1 & H2 & _).
    destruct Hm as [Hm|Hm]; rewrite Hm in *; done.
  Qed.

  Lemma same_lengths n m (c : column pyval T) (t : tbl) : rect n (contents ((m, c) :: t)) →
    forallb (λ d, col_len d.2 =? col_len c) ((m, c) :: t) = true.
  Proof.
    intros H. apply forallb_forall. intros d Hd%elem_of_list_In. unfold rect in H. rewrite list.Forall_forall in H.
    assert (∀ e, e ∈ (m, c) :: t → col_len e.2 = Z.of_nat n) as Hl.
    { intros e He. rewrite col_len_iter. f_equal. apply (H (e.1, col_iter e.2)). unfold contents. apply elem_of_list_fmap. by exists e. }
    rewrite (Hl d Hd). pose proof (Hl (m, c) (elem_of_list_here _ _)) as Hc. cbn [snd] in Hc. rewrite Hc. lia.
  Qed.

  Lemma native_filter_says (t : tbl) ds cs name every n : rect n (contents t) → ds ≠ [] → t ≠ [] →
    Forall2 says ds cs → Forall (fits t.*1) cs → spelled name (quantifier every) →
    native_filter ty ps repr t ds name = nim_filter ty ps (nim_cmp repr) t (map xclause cs) (every_type every).
  Proof.
    intros Hr Hds Ht Hs Hf Hn. unfold native_filter. apply filter_type_of_spec in Hn. rewrite Hn.
    destruct ds as [|d ds]; [done|]. destruct t as [|[m c] t]; [done|].
    rewrite (same_lengths n m c t Hr). cbn [negb]. by rewrite (add_expressions_says _ _ cs).
  Qed.

  Theorem native_spec (t : tbl) ds cs name every n :
    0 < ps → rect n (contents t) → Forall2 says ds cs → Forall (fits t.*1) cs → (∃ m, mentions cs m) →
    spelled name (quantifier every) →
    let v := contents t in
    ∃ p f, dict_filter ty ps repr t ds name = Ok (p, f) ∧
      names (contents p) = names v ∧ names (contents f) = names v ∧
      rows VNone (contents p) = selected VNone v (row_holds test v every cs) n ∧
      rows VNone (contents f) = selected VNone v (λ i, negb (row_holds test v every cs i)) n.
  Proof.
    intros Hps Hr Hs Hf [m Hm] Hn v.
    destruct (filter_spec ty VNone ps (nim_cmp repr) t (map xclause cs) (every_type every) n Hps Hr) as (p & f & H1 & H2 & H3 & H4 & H5).
    { exists m. by apply uses_mentions. }
    { intros k Hk%uses_mentions. by eapply fits_mentions. }
    exists p, f. split; [|split; [done|]; split; [done|]; split].
    - rewrite <- H1. unfold dict_filter, tbl_filter. destruct (tbl_len t =? 0); [done|].
      apply (native_filter_says t ds cs name every n); try done.
      + intros ->. apply Forall2_nil_inv_l in Hs as ->. destruct Hm as (? & ?%elem_of_nil & _). done.
      + intros ->. apply (fits_mentions _ _ Hf) in Hm. by apply elem_of_nil in Hm.
    - rewrite H4. unfold selected. f_equal. apply list_filter_iff. intros i. by rewrite satisfies_holds.
    - rewrite H5. unfold selected. f_equal. apply list_filter_iff. intros i. by rewrite satisfies_holds.
  Qed.

  Lemma native_no_dictionary (t : tbl) name every :
    tbl_len t ≠ 0 → spelled name (quantifier every) → dict_filter ty ps repr t [] name = Ok (t, []).
  Proof.
    intros Ht Hn%filter_type_of_spec. unfold dict_filter, native_filter. rewrite Hn. by destruct (Z.eqb_spec (tbl_len t) 0).
  Qed.

  Theorem native_accepts (t : tbl) ds name n :
    0 < ps → rect n (contents t) → (0 < n)%nat → t ≠ [] → ds ≠ [] → Forall (λ d, NoDup d.*1) ds →
    (∃ r, dict_filter ty ps repr t ds name = Ok r) ↔
    ∃ every cs, spelled name (quantifier every) ∧ Forall2 says ds cs ∧ Forall (fits t.*1) cs ∧ ∃ m, mentions cs m.
  Proof.
    intros Hps Hr Hn Ht Hds Hnd. split.
    - intros [r H]. unfold dict_filter in H.
      destruct (Z.eqb_spec (tbl_len t) 0) as [Hz|Hz].
      { rewrite tbl_len_spec, (nrows_rect _ n) in Hz by (done || by destruct t). lia. }
      assert (∃ every, filter_type_of name = Some (every_type every)) as [every Hev].
      { unfold native_filter in H. destruct (filter_type_of name) as [[]|]; [by exists true|by exists false|done]. }
      assert (∃ xs, add_expressions t.*1 ds = Ok xs) as [xs Hxs].
      { unfold native_filter in H. rewrite Hev in H. destruct ds as [|d ds]; [done|]. destruct t as [|[m c] t]; [done|].
        rewrite (same_lengths n m c t Hr) in H. cbn [negb] in H.
        destruct (add_expressions _ _) as [xs|] in H |- *; [by exists xs|done]. }
      apply add_expressions_inv in Hxs as (cs & H1 & H2 & ->); [|done].
      exists every, cs. apply filter_type_of_spec in Hev. split; [done|]. split; [done|]. split; [done|].
      rewrite (native_filter_says t ds cs name every n) in H by done.
      destruct (expr_cols (map xclause cs)) as [|m ms] eqn:E.
      + exfalso. unfold nim_filter in H. destruct H1 as [|d c ds cs H0 H1]; [done|]. cbn [map] in H, E.
        destruct t as [|[k c0] t]; [done|]. rewrite (same_lengths n k c0 t Hr) in H. cbn [negb] in H.
        destruct (negb _) in H; [done|]. rewrite E in H. done.
      + exists m. apply uses_mentions. apply (expr_cols_uses ty VNone). rewrite E. by left.
    - intros (every & cs & H1 & H2 & H3 & H4).
      destruct (native_spec t ds cs name every n Hps Hr H2 H3 H4 H1) as (p & f & H & _). by exists (p, f).
  Qed.
End native.
