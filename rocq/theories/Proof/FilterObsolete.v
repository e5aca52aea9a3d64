(** C96: the obsolete filter, and where it agrees with the native one *)
From Verif.Spec Require Import FilterDict.
From Verif.Model Require Import FilterDict.
From Verif.Proof Require Import SliceLemmas ColumnRead DictLemmas SmallProofs TableBase FilterProofs ReduxProofs FilterDictProofs.
Local Open Scope string_scope.
Local Open Scope list_scope.
Local Open Scope Z_scope.

Lemma part_of_is_part a b : is_part a b = part_of a b.
Proof. induction b as [|c b IH]; [done|]. cbn [is_part part_of]. by rewrite IH. Qed.

Lemma filter_op_relation str r x y : filter_op str r x y = py_relation str r x y.
Proof. by destruct r. Qed.

Lemma evaluate_spec f ab : evaluate f ab = map (safe_test f) ab.
Proof.
  unfold evaluate. destruct (compare_all f ab) as [l|] eqn:E; [|done].
  revert l E. induction ab as [|[a b] ab IH]; intros l; cbn [compare_all map].
  - by intros [= <-].
  - destruct (f a b) as [x|] eqn:Hf; [|done]. destruct (compare_all f ab) as [k|] eqn:Hk; [|done].
    intros [= <-]. rewrite (IH k) by done. unfold safe_test at 2. cbn. by rewrite Hf.
Qed.

Lemma filter_ops_sign r : dget filter_ops (sign r) = Some r.
Proof. by destruct r. Qed.

Lemma along_tests op n (Ps : list (nat → bool)) (Q : nat → bool) :
  fold_left (zip_with op) (map (tests n) Ps) (tests n Q) = tests n (λ i, fold_left op (map (λ P, P i) Ps) (Q i)).
Proof.
  revert Q. induction Ps as [|P Ps IH]; intros Q; cbn [map fold_left]; [done|].
  rewrite <- IH. f_equal. unfold tests. clear. induction (seq 0 n) as [|i l IH]; [done|]. cbn. by rewrite IH.
Qed.

Section obsolete.
  Context {T : Type} `{EqDecision T} (ty : pyval → T) (ps : Z) (str : pyval → string).
  Context (Hps : 0 < ps).
  Local Notation tbl := (list (string * column pyval T)).
  Local Notation test := (python_test str).

  Definition left_get (d : dict) := (get_none d "column1", get_none d "value1").
  Definition right_get (d : dict) := (get_none d "column2", get_none d "value2").
  Definition side_get (s : side) : pyval * pyval := match s with Column n => (VStr n, VNone) | Value v => (VNone, v) end.

  Lemma says_left d c : says d c → left_get d = side_get c.1.1.
  Proof. intros H. unfold left_get, get_none. rewrite !(says_dget d c _ H). by destruct c as [[[] ?] []]. Qed.
  Lemma says_right d c : says d c → right_get d = side_get c.2.
  Proof. intros H. unfold right_get, get_none. rewrite !(says_dget d c _ H). by destruct c as [[[] ?] []]. Qed.

  Lemma check_side_ok (t : tbl) s : in_columns t.*1 s → check_side t (side_get s).1 (side_get s).2 = Ok ().
  Proof.
    intros H. destruct s as [n|v]; cbn.
    - unfold check_side. cbn [not_none has_column]. cbn in H. rewrite (bool_decide_eq_true_2 (n ∈ _)) by done. done.
    - unfold check_side, not_none. rewrite (bool_decide_eq_false_2 (VNone ≠ VNone)) by naive_solver. cbn. by rewrite andb_false_r.
  Qed.

  Lemma check_dict_ok (t : tbl) d c : says d c → in_columns t.*1 c.1.1 → in_columns t.*1 c.2 → check_dict t d = Ok ().
  Proof.
    intros H H1 H2. unfold check_dict. rewrite (says_length d c H), (says_keys d c H). cbn [negb Z.eqb]. rewrite Pos.eqb_refl. cbn [negb].
    rewrite (says_dget d c "criteria" H). cbn [dget]. rewrite decide_True by done. rewrite filter_ops_sign.
    pose proof (says_left d c H) as L. pose proof (says_right d c H) as R. unfold left_get in L. unfold right_get in R.
    pose proof (check_side_ok t _ H1) as K1. pose proof (check_side_ok t _ H2) as K2. rewrite <- L in K1. rewrite <- R in K2.
    cbn [fst snd] in K1, K2. rewrite K1. cbn [res_bind]. done.
  Qed.

  Lemma drop_take_seq (l : list pyval) s e : (s <= e)%nat → (e <= length l)%nat →
    drop s (take e l) = map (λ i, default VNone (l !! i)) (seq s (e - s)).
  Proof.
    intros Hs He. apply list_eq. intros i. rewrite lookup_drop, list_lookup_fmap.
    destruct (decide (i < e - s)%nat) as [Hi|Hi].
    - rewrite lookup_take by lia. rewrite lookup_seq_lt by done. cbn.
      destruct (lookup_lt_is_Some_2 l (s + i)) as [x Hx]; [lia|]. by rewrite Hx.
    - rewrite lookup_take_ge by lia. rewrite lookup_seq_ge by lia. done.
  Qed.

  Lemma side_values_spec (t : tbl) s n a b : rect n (contents t) → in_columns t.*1 s → 0 <= a <= b → b <= Z.of_nat n →
    side_values t (side_get s).1 (side_get s).2 a b =
      Ok (map (λ i, side_value (contents t) i s) (seq (Z.to_nat a) (Z.to_nat b - Z.to_nat a))).
  Proof.
    intros Hr Hs Hab Hb. destruct s as [m|v]; cbn [side_get fst snd side_values].
    - cbn in Hs. destruct (dget_in t m Hs) as [c Hc]. rewrite Hc. rewrite col_getslice_pos by done. f_equal.
      rewrite getslice_between by lia.
      assert (dget (contents t) m = Some (col_iter c)) as Hd by (by rewrite contents_dget, Hc).
      assert (length (col_iter c) = n) as Hl.
      { unfold rect in Hr. rewrite list.Forall_forall in Hr. apply (Hr (m, col_iter c)). by apply dget_Some_elem. }
      rewrite drop_take_seq by lia. apply map_ext. intros i. by apply field_dget.
    - f_equal. cbn [side_value]. rewrite <- Z2Nat.inj_sub by lia. generalize (Z.to_nat a). generalize (Z.to_nat (b - a)).
      intros k. induction k as [|k IH]; intros j; [done|]. cbn. by rewrite <- IH.
  Qed.

  Lemma bitmap_loop (t : tbl) d c n rounds e : rect n (contents t) → says d c → in_columns t.*1 c.1.1 → in_columns t.*1 c.2 →
    0 <= e <= Z.of_nat n → Z.of_nat n - e < ps * Z.of_nat rounds →
    bitmap_row str t d c.1.2 (step_loop rounds ps (Z.of_nat n) e) =
      Ok (map (λ i, clause_holds test (contents t) i c) (seq (Z.to_nat e) (n - Z.to_nat e))).
  Proof.
    intros Hr Hd H1 H2. revert e. induction rounds as [|rounds IH]; intros e He Hrd; [lia|].
    cbn [step_loop bitmap_row]. set (e' := Z.min (e + ps) (Z.of_nat n)).
    pose proof (says_left d c Hd) as L. pose proof (says_right d c Hd) as R. unfold left_get in L. unfold right_get in R.
    pose proof (side_values_spec t c.1.1 n e e' Hr H1 ltac:(lia) ltac:(lia)) as S1. rewrite <- L in S1. cbn [fst snd] in S1.
    pose proof (side_values_spec t c.2 n e e' Hr H2 ltac:(lia) ltac:(lia)) as S2. rewrite <- R in S2. cbn [fst snd] in S2.
    rewrite S1. cbn [res_bind]. rewrite S2. cbn [res_bind]. rewrite !map_length, Z.eqb_refl. cbn [negb].
    rewrite evaluate_spec.
    set (k := (Z.to_nat e' - Z.to_nat e)%nat).
    assert (map (safe_test (filter_op str c.1.2)) (zip (map (λ i, side_value (contents t) i c.1.1) (seq (Z.to_nat e) k))
        (map (λ i, side_value (contents t) i c.2) (seq (Z.to_nat e) k))) =
      map (λ i, clause_holds test (contents t) i c) (seq (Z.to_nat e) k)) as ->.
    { induction (seq (Z.to_nat e) k) as [|i l IHl]; [done|]. cbn [map zip_with]. rewrite IHl. f_equal.
      unfold safe_test, clause_holds, python_test. cbn [fst snd]. by rewrite filter_op_relation. }
    destruct (Z.eqb_spec e' (Z.of_nat n)) as [Hend|Hend].
    - cbn [bitmap_row res_map]. rewrite app_nil_r. do 3 f_equal. lia.
    - rewrite IH by lia. cbn [res_map]. rewrite <- map_app. f_equal. f_equal.
      replace (Z.to_nat e') with (Z.to_nat e + k)%nat by lia. rewrite <- seq_app. f_equal. lia.
  Qed.

  Lemma bitmap_rows_spec (t : tbl) ds cs n : rect n (contents t) → t ≠ [] → Forall2 says ds cs →
    Forall (λ c, in_columns t.*1 c.1.1 ∧ in_columns t.*1 c.2) cs →
    bitmap_rows ps str t ds = Ok (map (λ c, tests n (λ i, clause_holds test (contents t) i c)) cs).
  Proof using Hps.
    intros Hr Ht H. induction H as [|d c ds cs Hd Hds IH]; intros Hf; [done|]. apply list.Forall_cons in Hf as [[H1 H2] Hf].
    cbn [bitmap_rows map]. unfold get_none at 1. rewrite (says_dget d c "criteria" Hd). cbn [dget]. rewrite decide_True by done.
    cbn [from_option id]. rewrite filter_ops_sign. unfold page_steps. rewrite tbl_len_spec, (nrows_rect _ n) by (done || by destruct t).
    rewrite (bitmap_loop t d c n) by (try done; try lia;
      rewrite py_range_length; unfold range_count; assert ((0 <? ps) = true) as -> by lia;
      rewrite Z2Nat.id by (apply Z.div_pos; lia); Z.div_mod_to_equations; nia).
    cbn [res_bind]. rewrite IH by done. cbn [res_map]. unfold tests. by rewrite Nat.sub_0_r.
  Qed.

  Lemma check_all_ok (t : tbl) ds cs : Forall2 says ds cs →
    Forall (λ c, in_columns t.*1 c.1.1 ∧ in_columns t.*1 c.2) cs → check_all t ds = Ok ().
  Proof.
    intros H. induction H as [|d c ds cs Hd Hds IH]; intros Hf; [done|]. apply list.Forall_cons in Hf as [[H1 H2] Hf].
    cbn [check_all]. rewrite (check_dict_ok t d c) by done. cbn [res_bind]. by apply IH.
  Qed.

  Lemma mask_spec (t : tbl) ds cs every n : rect n (contents t) → t ≠ [] → Forall2 says ds cs →
    Forall (λ c, in_columns t.*1 c.1.1 ∧ in_columns t.*1 c.2) cs →
    filter_mask ps str t ds (quantifier every) = Ok (tests n (row_holds test (contents t) every cs)).
  Proof using ty Hps.
    intros Hr Ht Hs Hf. unfold filter_mask.
    rewrite bool_decide_eq_true_2 by (destruct every; cbn; set_solver). cbn [negb].
    unfold get_filter_bitmap. rewrite (check_all_ok t ds cs) by done. cbn [res_bind].
    rewrite (bitmap_rows_spec t ds cs n) by done. cbn [res_map]. f_equal.
    rewrite tbl_len_spec, (nrows_rect _ n), Nat2Z.id by (done || by destruct t). unfold along.
    assert (∀ one, map (λ c, tests n (λ i, clause_holds test (contents t) i c)) cs
      = map (tests n) (map (λ c i, clause_holds test (contents t) i c) cs) ∧ replicate n one = tests n (λ _, one)) as Hm.
    { intros one. split; [by rewrite map_map|]. unfold tests. clear. generalize 0%nat.
      induction n as [|n IH]; intros k; [done|]. cbn. by rewrite <- IH. }
    destruct every; cbn [quantifier].
    - rewrite decide_True by done. destruct (Hm true) as [-> ->]. rewrite along_tests. apply tests_ext. intros i _.
      rewrite map_map. unfold row_holds, all_of. rewrite (fold_and id). by rewrite andb_true_l.
    - rewrite decide_False by done. destruct (Hm false) as [-> ->]. rewrite along_tests. apply tests_ext. intros i _.
      rewrite map_map. unfold row_holds, any_of. rewrite (fold_or id). by rewrite orb_false_l.
  Qed.

  Theorem obsolete_spec (t : tbl) ds cs every n : rect n (contents t) → t ≠ [] → Forall2 says ds cs →
    Forall (λ c, in_columns t.*1 c.1.1 ∧ in_columns t.*1 c.2) cs →
    let v := contents t in
    ∃ p f, filter_non_primitive ty ps str t ds (quantifier every) = Ok (p, f) ∧
      names (contents p) = names v ∧ names (contents f) = names v ∧
      rows VNone (contents p) = selected VNone v (row_holds test v every cs) n ∧
      rows VNone (contents f) = selected VNone v (λ i, negb (row_holds test v every cs i)) n.
  Proof using Hps.
    intros Hr Ht Hs Hf v. unfold filter_non_primitive. rewrite tbl_len_spec, (nrows_rect _ n) by (done || by destruct t).
    destruct (Z.eqb_spec (Z.of_nat n) 0) as [Hz|Hz].
    { assert (n = 0%nat) as -> by lia. exists t, t. split_and!; try done;
        unfold selected; cbn; unfold rows; rewrite (nrows_rect _ 0); try done; by destruct t. }
    rewrite (mask_spec t ds cs every n) by done. cbn [res_bind]. set (P := row_holds test (contents t) every cs).
    unfold compress_both. rewrite tbl_len_spec, (nrows_rect _ n) by (done || by destruct t).
    destruct (compress_cols_spec ty VNone ps Hps n P t Hr) as (p & Hp & Hcp).
    destruct (compress_cols_spec ty VNone ps Hps n (λ i, negb (P i)) t Hr) as (q & Hq & Hcq).
    rewrite Hp. cbn [res_bind]. unfold tests in Hq |- *. rewrite map_map, Hq. cbn [res_map].
    exists p, q. split; [done|]. rewrite Hcp, Hcq, !pick_rows_names, !pick_rows_rows by (by destruct t). done.
  Qed.
End obsolete.

(** ** Where both comparisons agree *)
Lemma Qc_of_Z_compare a b : (Qc_of_Z a ?= Qc_of_Z b)%Qc = (a ?= b).
Proof.
  unfold Qccompare, Qc_of_Z. cbn [this].
  unfold Qcompare. cbn. by rewrite !Z.mul_1_r.
Qed.
Lemma Qc_eqb a b : bool_decide (VFloat a = VFloat b) = match (a ?= b)%Qc with Eq => true | _ => false end.
Proof.
  destruct (a ?= b)%Qc eqn:E.
  - apply Qceq_alt in E as ->. by apply bool_decide_eq_true.
  - apply bool_decide_eq_false. intros [= ->]. assert (b ?= b = Eq)%Qc by (by apply Qceq_alt). congruence.
  - apply bool_decide_eq_false. intros [= ->]. assert (b ?= b = Eq)%Qc by (by apply Qceq_alt). congruence.
Qed.
Lemma int_float_compare a b : (Qc_of_Z (Z.b2z a) ?= Qc_of_Z (Z.b2z b))%Qc = (Z.b2z a ?= Z.b2z b).
Proof. apply Qc_of_Z_compare. Qed.
Lemma str_eqb a b : bool_decide (VStr a = VStr b) = match String.compare a b with Eq => true | _ => false end.
Proof.
  destruct (String.compare a b) eqn:E.
  - apply string_compare_eq in E as ->. by apply bool_decide_eq_true.
  - apply bool_decide_eq_false. intros [= ->]. assert (String.compare b b = Eq) by (by apply string_compare_eq). congruence.
  - apply bool_decide_eq_false. intros [= ->]. assert (String.compare b b = Eq) by (by apply string_compare_eq). congruence.
Qed.
Lemma Z_eqb_f (f : Z → pyval) a b : (∀ x y, f x = f y → x = y) → bool_decide (f a = f b) = match a ?= b with Eq => true | _ => false end.
Proof.
  intros Hf. destruct (Z.compare_spec a b) as [->|H|H].
  - by apply bool_decide_eq_true.
  - apply bool_decide_eq_false. intros ->%Hf. lia.
  - apply bool_decide_eq_false. intros ->%Hf. lia.
Qed.
Lemma day_compare a b : (day_us * a ?= day_us * b) = (a ?= b).
Proof. unfold day_us. destruct (Z.compare_spec a b); [apply Z.compare_eq_iff|apply Z.compare_lt_iff|apply Z.compare_gt_iff]; lia. Qed.

Definition is_num (v : pyval) := match v with VBool _ | VInt _ | VFloat _ => true | _ => false end.
Definition is_int_float (v : pyval) := match v with VInt _ | VFloat _ => true | _ => false end.
Definition is_day (v : pyval) := match v with VDate _ | VDatetime _ => true | _ => false end.
Lemma is_num_spec v : py_type v ∈ ["bool"; "int"; "float"] ↔ is_num v = true.
Proof. rewrite <- (bool_decide_eq_true (py_type v ∈ _)). by destruct v. Qed.
Lemma is_int_float_spec v : py_type v ∈ ["int"; "float"] ↔ is_int_float v = true.
Proof. rewrite <- (bool_decide_eq_true (py_type v ∈ _)). by destruct v. Qed.
Lemma is_day_spec v : py_type v ∈ ["date"; "datetime"] ↔ is_day v = true.
Proof. rewrite <- (bool_decide_eq_true (py_type v ∈ _)). by destruct v. Qed.

Lemma alike_agree repr str r x y : alike repr str r x y → nim_cmp repr (method r) x y = python_test str r x y.
Proof.
  intros (Hx & Hy & H). assert (r = RIn ∨ r ≠ RIn) as [->|Hr] by (destruct r; auto).
  { destruct H as [H1 H2]. unfold nim_cmp, python_test. cbn [method py_relation from_option id]. rewrite <- H1, <- H2. change part_of with is_part.
    destruct x; try done. destruct y; cbn; rewrite ?orb_false_l; try done.
    - symmetry. rewrite bool_decide_eq_true_2 by done. cbn. generalize (repr VNone). intros s.
      assert (String.prefix s s = true) as Hp by (apply String.prefix_correct; induction s; cbn; congruence).
      destruct s; cbn [is_part]; by rewrite Hp.
  }
  assert (x = VNone ∨ py_type x = py_type y ∨ (is_int_float x = true ∧ is_int_float y = true) ∨
      (r ≠ RNe ∧ ¬ (is_num x = true ∧ is_num y = true) ∧ ¬ (is_day x = true ∧ is_day y = true))) as Hk.
  { rewrite <- !is_num_spec, <- !is_int_float_spec, <- !is_day_spec. by destruct r. }
  clear H. unfold python_test, nim_cmp.
  destruct x, y; cbn in Hx, Hy; try done; cbn [py_type is_num is_int_float is_day] in Hk;
    try (exfalso; destruct Hk as [Hk|[Hk|[[Hk1 Hk2]|(_ & Hk1 & Hk2)]]]; first [discriminate|by apply Hk1|by apply Hk2]);
    destruct r; try done; cbn [method py_relation]; cbn [eq_class number py_order native_order ord_test fmap option_fmap option_map from_option id];
    try (by (exfalso; destruct Hk as [Hk|[Hk|[[Hk1 Hk2]|(Hk & Hk1 & Hk2)]]]; first [discriminate|by apply Hk]));
    rewrite ?int_float_compare, ?Qc_eqb, ?str_eqb, ?Qc_of_Z_compare, ?day_compare, ?int_float_compare;
    rewrite ?(Z_eqb_f VTime) by congruence; rewrite ?(Z_eqb_f VDate) by congruence; rewrite ?(Z_eqb_f VDatetime) by congruence;
    rewrite ?Qc_of_Z_compare;
    try (by match goal with |- context [match ?c with Eq => _ | Lt => _ | Gt => _ end] => destruct c end).
Qed.

Lemma prefix_app a b : String.prefix a b = true ↔ ∃ r, b = a +:+ r.
Proof.
  revert b. induction a as [|c a IH]; intros b; cbn [String.prefix].
  - split; [intros _; by exists b|by destruct b].
  - destruct b as [|d b]; [split; [done|by intros [r Hr]]|]. cbn [String.prefix]. destruct (Ascii.ascii_dec c d) as [->|Hn].
    + rewrite IH. split; intros [r Hr]; exists r; [by rewrite Hr|by injection Hr].
    + split; [done|]. intros [r Hr]. change (String d b = String c (a +:+ r)) in Hr. exfalso. apply Hn. by injection Hr.
Qed.
Lemma part_of_spec a b : part_of a b = true ↔ ∃ l r, b = l +:+ a +:+ r.
Proof.
  induction b as [|c b IH]; cbn [part_of]; rewrite orb_true_iff, prefix_app.
  - split.
    + intros [[r Hr]|]; [by exists "", r|done].
    + intros (l & r & H). left. destruct l; [by exists r|done].
  - rewrite IH. split.
    + intros [[r Hr]|(l & r & ->)]; [by exists "", r|]. by exists (String c l), r.
    + intros (l & r & H). destruct l as [|d l]; [left; by exists r|]. right. injection H as _ H. by exists l, r.
Qed.

Theorem filters_agree {T} `{EqDecision T} (ty : pyval → T) ps repr str (t : list (string * column pyval T)) ds cs every n :
  0 < ps → rect n (contents t) → Forall2 says ds cs → Forall (fits t.*1) cs → (∃ m, mentions cs m) →
  (∀ i c, (i < n)%nat → c ∈ cs → alike repr str c.1.2 (side_value (contents t) i c.1.1) (side_value (contents t) i c.2)) →
  ∃ p f q g, dict_filter ty ps repr t ds (quantifier every) = Ok (p, f) ∧
    filter_non_primitive ty ps str t ds (quantifier every) = Ok (q, g) ∧
    names (contents p) = names (contents q) ∧ names (contents f) = names (contents g) ∧
    rows VNone (contents p) = rows VNone (contents q) ∧ rows VNone (contents f) = rows VNone (contents g).
Proof.
  intros Hps Hr Hs Hf Hm Ha.
  assert (t ≠ []) as Ht.
  { intros ->. destruct Hm as [m Hm]. apply (fits_mentions _ _ Hf) in Hm. by apply elem_of_nil in Hm. }
  destruct (native_spec ty ps repr t ds cs (quantifier every) every n Hps Hr Hs Hf Hm) as (p & f & A1 & A2 & A3 & A4 & A5).
  { destruct every; repeat constructor; by left. }
  destruct (obsolete_spec ty ps str Hps t ds cs every n Hr Ht Hs) as (q & g & B1 & B2 & B3 & B4 & B5).
  { eapply list.Forall_impl; [exact Hf|]. by intros c (H1 & H2 & _). }
  assert (∀ i, (i < n)%nat → row_holds (λ r, nim_cmp repr (method r)) (contents t) every cs i
    = row_holds (python_test str) (contents t) every cs i) as Hrow.
  { intros i Hi. unfold row_holds.
    assert (map (clause_holds (λ r, nim_cmp repr (method r)) (contents t) i) cs = map (clause_holds (python_test str) (contents t) i) cs) as ->;
      [|done].
    apply map_ext_in. intros c Hc%elem_of_list_In. unfold clause_holds. apply alike_agree. by apply Ha. }
  exists p, f, q, g. split; [done|]. split; [done|]. rewrite A2, A3, A4, A5, B2, B3, B4, B5.
  split; [done|]. split; [done|].
  assert (∀ P Q : nat → bool, (∀ i, (i < n)%nat → P i = Q i) → selected VNone (contents t) P n = selected VNone (contents t) Q n) as He.
  { intros P Q H. unfold selected. f_equal. assert (∀ i, i ∈ seq 0 n → P i = Q i) as H' by (intros i [_ Hi]%elem_of_seq; by apply H).
    clear H. induction (seq 0 n) as [|i l IH]; [done|]. rewrite !filter_cons.
    rewrite (H' i) by (by left). rewrite IH; [done|]. intros j Hj. apply H'. by right. }
  split; apply He; [done|]. intros i Hi. by rewrite Hrow.
Qed.

(** A column that the table has not is a ValueError. *)
Section unknown.
  Context {T : Type} `{EqDecision T} (ty : pyval → T) (ps : Z) (str : pyval → string).
  Local Notation tbl := (list (string * column pyval T)).

  Lemma check_side_cases (t : tbl) c v : check_side t c v = Ok () ∨ check_side t c v = Err ValueError.
  Proof using. unfold check_side. repeat case_match; auto. Qed.
  Lemma check_side_unknown (t : tbl) c v : c ≠ VNone → (∀ m, c = VStr m → m ∉ t.*1) → check_side t c v = Err ValueError.
  Proof using.
    intros H1 H2. unfold check_side, not_none. rewrite (bool_decide_eq_true_2 _ H1). unfold has_column.
    destruct c; try done. rewrite bool_decide_eq_false_2; [done|]. by apply H2.
  Qed.
  Lemma check_dict_cases (t : tbl) d : dget d "criteria" ≠ None → check_dict t d = Ok () ∨ check_dict t d = Err ValueError.
  Proof using.
    intros H. unfold check_dict. destruct (negb _); [by right|]. destruct (negb _); [by right|].
    destruct (dget d "criteria"); [|done]. case_match; [|by right].
    destruct (check_side_cases t (get_none d "column1") (get_none d "value1")) as [-> | ->]; cbn [res_bind]; [|by right].
    apply check_side_cases.
  Qed.
  Lemma check_dict_unknown (t : tbl) d k c : dget d "criteria" ≠ None → k = "column1" ∨ k = "column2" → dget d k = Some c →
    c ≠ VNone → (∀ m, c = VStr m → m ∉ t.*1) → check_dict t d = Err ValueError.
  Proof using.
    intros H Hk Hd H1 H2. unfold check_dict. destruct (negb _); [done|]. destruct (negb _); [done|].
    destruct (dget d "criteria"); [|done]. case_match; [|done].
    assert (get_none d k = c) as Hg by (unfold get_none; by rewrite Hd).
    destruct Hk as [-> | ->]; rewrite Hg.
    - by rewrite check_side_unknown.
    - destruct (check_side_cases t (get_none d "column1") (get_none d "value1")) as [-> | ->]; cbn [res_bind]; [|done].
      by apply check_side_unknown.
  Qed.

  Theorem obsolete_unknown (t : tbl) ds every d k c : tbl_len t ≠ 0 → Forall (λ d, dget d "criteria" ≠ None) ds →
    d ∈ ds → k = "column1" ∨ k = "column2" → dget d k = Some c → c ≠ VNone → (∀ m, c = VStr m → m ∉ t.*1) →
    filter_non_primitive ty ps str t ds (quantifier every) = Err ValueError.
  Proof using.
    intros Hn Hc Hd Hk Hdk H1 H2. unfold filter_non_primitive. rewrite (proj2 (Z.eqb_neq _ _) Hn).
    unfold filter_mask. rewrite bool_decide_eq_true_2 by (destruct every; cbn; set_solver). cbn [negb].
    unfold get_filter_bitmap. assert (check_all t ds = Err ValueError) as ->; [|done].
    revert Hc Hd. clear Hn. induction ds as [|e ds IH]; intros Hc Hd; [by apply elem_of_nil in Hd|].
    apply list.Forall_cons in Hc as [He Hc]. cbn [check_all]. apply elem_of_cons in Hd as [<-|Hd].
    - by rewrite (check_dict_unknown t d k c).
    - destruct (check_dict_cases t e He) as [-> | ->]; cbn [res_bind]; [|done]. by apply IH.
  Qed.

  Theorem obsolete_word (t : tbl) ds word : tbl_len t ≠ 0 → word ≠ "all" → word ≠ "any" →
    filter_non_primitive ty ps str t ds word = Err ValueError.
  Proof using.
    intros Hn H1 H2. unfold filter_non_primitive, filter_mask. rewrite (proj2 (Z.eqb_neq _ _) Hn).
    rewrite bool_decide_eq_false_2 by (cbn; set_solver). done.
  Qed.
End unknown.
