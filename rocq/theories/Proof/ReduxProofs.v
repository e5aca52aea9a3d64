(** Proofs about [Model.Redux] and [Model.NimCmp] *)
From Verif.Spec Require Import Filter PyValue.
From Verif.Spec Require Export FilterTerms.
From Verif.Proof Require Import SliceLemmas ColumnRead DictLemmas SmallProofs TableBase FilterProofs TableSelect TableMisc RepaginateProofs.
From Verif.Model Require Import Redux NimCmp.
Local Open Scope Z_scope.

Section proofs.
  Context {N A T : Type} `{EqDecision N, EqDecision T} (ty : A → T) (none : A) (ps : Z) (Hps : 0 < ps).
  Local Notation tbl := (list (N * column A T)).
  Local Notation view := (view (N := N) (A := A)).

  Lemma mask_pages_spec op f k (c : column A T) mask :
    (k + length (col_iter c) <= length mask)%nat →
    mask_pages op f k c mask =
      take k mask ++ zip_with op (drop k (take (k + length (col_iter c)) mask)) (map f (col_iter c))
        ++ drop (k + length (col_iter c)) mask.
  Proof using Type.
    clear Hps ps. revert k mask. induction c as [|p c IH]; intros k mask Hl; cbn [mask_pages].
    - change (col_iter []) with (@nil A). cbn [length map]. rewrite Nat.add_0_r, drop_ge by (rewrite take_length; lia).
      cbn. by rewrite take_drop.
    - rewrite col_iter_cons, app_length in Hl |- *. set (e := (k + length (pdata p))%nat).
      set (z := zip_with op (drop k (take e mask)) (map f (pdata p))).
      assert (Hz : length z = length (pdata p)).
      { unfold z. rewrite zip_with_length, drop_length, take_length, map_length. lia. }
      assert (Htk : length (take k mask) = k) by (rewrite take_length; lia).
      set (mask' := take k mask ++ z ++ drop e mask).
      assert (Hlm : length mask' = length mask).
      { unfold mask'. rewrite !app_length, Hz, Htk, drop_length. lia. }
      rewrite IH by lia.
      assert (Ht : take e mask' = take k mask ++ z).
      { unfold mask'. rewrite app_assoc. apply take_app_alt. rewrite app_length, Htk, Hz. done. }
      assert (Hd : ∀ j, drop (e + j) mask' = drop (e + j) mask).
      { intros j. rewrite <- !drop_drop. f_equal. unfold mask'. rewrite app_assoc.
        apply drop_app_alt. rewrite app_length, Htk, Hz. done. }
      set (j := length (col_iter c)).
      assert (Hs : drop e (take (e + j) mask') = drop e (take (e + j) mask)).
      { rewrite <- !take_drop_commute. f_equal. specialize (Hd 0%nat). by rewrite Nat.add_0_r in Hd. }
      rewrite Ht, Hd, Hs, <- !app_assoc. f_equal.
      replace (k + (length (pdata p) + j))%nat with (e + j)%nat by lia.
      rewrite app_assoc. f_equal. rewrite map_app. unfold z.
      rewrite <- zip_with_app by (rewrite drop_length, take_length, map_length; lia).
      f_equal. symmetry. apply slice_cut; lia.
  Qed.


  Lemma zip_tests op n P (f : A → bool) (l : list A) :
    length l = n → zip_with op (tests n P) (map f l) = tests n (λ i, op (P i) (f (default none (l !! i)))).
  Proof using Type.
    clear Hps ps. intros <-. unfold tests. apply list_eq. intros i. rewrite lookup_zip_with.
    assert (HL : ∀ X Y (g : X → Y) k i, map g k !! i = g <$> k !! i) by (intros; apply list_lookup_fmap).
    rewrite !HL. destruct (decide (i < length l)%nat) as [Hi|Hi].
    - rewrite lookup_seq_lt by done. destruct (lookup_lt_is_Some_2 l i Hi) as [x Hx].
      rewrite Hx. cbn. by rewrite Hx.
    - rewrite lookup_seq_ge by lia. done.
  Qed.

  Lemma mask_pages_tests op f n P (c : column A T) :
    length (col_iter c) = n →
    mask_pages op f 0 c (tests n P) = tests n (λ i, op (P i) (f (default none (col_iter c !! i)))).
  Proof using Type.
    clear Hps ps. intros Hn. assert (Hl : length (tests n P) = n) by (unfold tests; by rewrite map_length, seq_length).
    rewrite mask_pages_spec by lia. cbn [Nat.add]. rewrite Hn, take_0, drop_0, take_ge, drop_ge by lia.
    rewrite app_nil_r. cbn [app]. by apply zip_tests.
  Qed.

  (** ** compress *)
  Lemma compress_loop_spec mask (c : column A T) rounds e acc :
    length mask = length (col_iter c) →
    0 <= e <= zlen mask → zlen mask - e < ps * Z.of_nat rounds →
    col_iter acc = pick_bits true (take (Z.to_nat e) mask) (col_iter c) →
    ∃ c', compress_col ty ps mask c (step_loop rounds ps (zlen mask) e) acc = Ok c' ∧
      col_iter c' = pick_bits true mask (col_iter c).
  Proof using Hps none.
    intros Hl. revert e acc. induction rounds as [|rounds IH]; intros e acc He Hr Hacc; [lia|].
    cbn [step_loop compress_col]. rewrite col_getslice_pos by done. cbn [res_bind].
    rewrite !getslice_between by lia. set (e' := Z.min (e + ps) (zlen mask)).
    assert (Hacc' : col_iter (col_extend ty ps acc (compress (drop (Z.to_nat e) (take (Z.to_nat e') mask))
        (drop (Z.to_nat e) (take (Z.to_nat e') (col_iter c))))) = pick_bits true (take (Z.to_nat e') mask) (col_iter c)).
    { rewrite col_extend_iter by done. rewrite Hacc. unfold compress.
      rewrite <- (take_drop (Z.to_nat e) (take (Z.to_nat e') mask)) at 2.
      rewrite take_take, Nat.min_l by lia. rewrite pick_bits_app. f_equal.
      rewrite take_length, Nat.min_l by lia.
      rewrite <- (take_drop (Z.to_nat e') (col_iter c)) at 2.
      rewrite drop_app_le by (rewrite take_length; lia).
      rewrite pick_bits_le; [done|]. rewrite !drop_length, !take_length. lia. }
    destruct (Z.eqb_spec e' (zlen mask)) as [Hend|Hend].
    - cbn [compress_col]. eexists. split; [done|]. rewrite Hacc', Hend, Nat2Z.id, firstn_all. done.
    - apply IH; [lia|lia|done].
  Qed.

  Lemma compress_col_spec mask (c : column A T) :
    length mask = length (col_iter c) →
    ∃ c', compress_col ty ps mask c (page_steps ps (zlen mask)) [] = Ok c' ∧
      col_iter c' = pick_bits true mask (col_iter c).
  Proof using Hps none.
    intros Hl. apply compress_loop_spec; [done|lia| |done].
    rewrite py_range_length. unfold range_count. assert ((0 <? ps) = true) as -> by lia.
    rewrite Z2Nat.id by (apply Z.div_pos; lia). Z.div_mod_to_equations. nia.
  Qed.

  Lemma compress_cols_spec n P (t : tbl) :
    rect n (contents t) →
    ∃ r, compress_cols ty ps (tests n P) (Z.of_nat n) t = Ok r ∧
      contents r = pick_rows none (contents t) (filter (λ i, P i = true) (seq 0 n)).
  Proof using Hps none.
    intros Hr. assert (Hlen : length (tests n P) = n) by (unfold tests; by rewrite map_length, seq_length).
    rewrite <- filter_true.
    cut (∃ r, compress_cols ty ps (tests n P) (Z.of_nat n) t = Ok r ∧
      Forall2 (λ (x : N * list A) (y : N * list A), y.1 = x.1 ∧ y.2 = pick_bits true (tests n P) x.2) (contents t) (contents r)).
    { intros (r & Hr' & Hf). exists r. split; [done|]. by apply (picked_contents none true P n). }
    induction t as [|[m c] t IH]; [exists []; split; [done|constructor]|]. cbn [contents map] in Hr.
    apply list.Forall_cons in Hr as [Hc Hr]. cbn in Hc.
    destruct (IH Hr) as (r & Hr' & Hf). cbn [compress_cols].
    destruct (compress_col_spec (tests n P) c) as (c' & Hc' & Hi); [by rewrite Hlen|]. rewrite Hlen in Hc'.
    rewrite Hc'. cbn [res_bind]. rewrite Hr'. cbn [res_map]. eexists. split; [done|]. by constructor.
  Qed.

  Lemma compress_one_spec n P (t : tbl) :
    t ≠ [] → rect n (contents t) →
    ∃ r, compress_one ty ps t (tests n P) = Ok r ∧ names (contents r) = names (contents t) ∧
      rows none (contents r) = selected none (contents t) P n.
  Proof using Hps none.
    intros Hne Hr. assert (contents t ≠ []) by (by destruct t).
    unfold compress_one. rewrite tbl_len_spec, (nrows_rect _ n) by done.
    destruct (compress_cols_spec n P t Hr) as (r & Hr' & Hc). exists r. split; [done|].
    rewrite Hc, pick_rows_names, pick_rows_rows by done. done.
  Qed.

  Lemma replicate_tests n b : replicate n b = tests n (λ _, b).
  Proof using Type.
    unfold tests. clear. generalize 0%nat. induction n as [|n IH]; intros k; [done|]. cbn. by rewrite <- IH.
  Qed.

  Lemma tests_ext n P Q : (∀ i, (i < n)%nat → P i = Q i) → tests n P = tests n Q.
  Proof using Type.
    intros H. apply list_fmap_ext. intros _ i [_ Hi]%elem_of_list_lookup_2%elem_of_seq. by apply H.
  Qed.

  Lemma field_dget (v : view) nm l i : dget v nm = Some l → default none (l !! i) = field none v nm i.
  Proof using Type.
    clear. induction v as [|[m l'] v IH]; cbn; [done|]. repeat case_decide; subst; try done.
    - by intros [= ->].
  Qed.

  (** ** filter_all and filter_any *)
  Lemma mask_criteria_spec op n P (t : tbl) (crits : list (N * (A → bool))) :
    rect n (contents t) → (∀ k f, (k, f) ∈ crits → k ∈ t.*1) →
    mask_criteria op t crits (tests n P) = Ok (tests n (λ i,
      fold_left (λ b kf, op b (kf.2 (field none (contents t) kf.1 i))) crits (P i))).
  Proof using Type.
    clear Hps ps. intros Hr. revert P. induction crits as [|[k f] crits IH]; intros P Hk; [done|].
    cbn [mask_criteria fold_left fst snd]. destruct (dget_in t k) as [c Hc]; [apply (Hk k f); by left|].
    rewrite Hc. assert (Hl : dget (contents t) k = Some (col_iter c)) by (by rewrite contents_dget, Hc).
    rewrite mask_pages_tests.
    2:{ apply dget_Some_elem in Hl. exact (proj1 (list.Forall_forall _ _) Hr _ Hl). }
    rewrite IH by (intros ? ? ?; eapply Hk; by right). f_equal. apply tests_ext. intros i _.
    by rewrite (field_dget _ _ _ i Hl).
  Qed.

  Lemma fold_and {X} (g : X → bool) l b : fold_left (λ b x, b && g x) l b = b && forallb g l.
  Proof using Type. clear. revert b. induction l as [|x l IH]; intros b; cbn; [by rewrite andb_true_r|]. by rewrite IH, andb_assoc. Qed.
  Lemma fold_or {X} (g : X → bool) l b : fold_left (λ b x, b || g x) l b = b || existsb g l.
  Proof using Type. clear. revert b. induction l as [|x l IH]; intros b; cbn; [by rewrite orb_false_r|]. by rewrite IH, orb_assoc. Qed.

  Theorem filter_all_spec (t : tbl) (crits : list (N * (A → bool))) n :
    t ≠ [] → rect n (contents t) → (∀ k f, (k, f) ∈ crits → k ∈ t.*1) →
    ∃ r, filter_all ty ps t crits = Ok r ∧ names (contents r) = names (contents t) ∧
      rows none (contents r) = selected none (contents t) (λ i,
        all_of (map (λ kf, kf.2 (field none (contents t) kf.1 i)) crits)) n.
  Proof using Hps none.
    intros Hne Hr Hk. unfold filter_all. replace (forallb _ crits) with true.
    2:{ symmetry. apply forallb_forall. intros [k f] Hin%elem_of_list_In. apply bool_decide_eq_true. by eapply Hk. }
    cbn [negb]. rewrite tbl_len_spec, (nrows_rect _ n), Nat2Z.id by (done || by destruct t).
    rewrite replicate_tests, (mask_criteria_spec _ n) by done. cbn [res_bind].
    erewrite tests_ext; [by apply compress_one_spec|]. intros i _. cbn beta. rewrite fold_and. cbn [andb].
    unfold all_of. clear. induction crits as [|x crits IH]; [done|]. cbn. by rewrite IH.
  Qed.

  Theorem filter_any_spec (t : tbl) (crits : list (N * (A → bool))) n :
    t ≠ [] → rect n (contents t) → (∀ k f, (k, f) ∈ crits → k ∈ t.*1) →
    ∃ r, filter_any ty ps t crits = Ok r ∧ names (contents r) = names (contents t) ∧
      rows none (contents r) = selected none (contents t) (λ i,
        any_of (map (λ kf, kf.2 (field none (contents t) kf.1 i)) crits)) n.
  Proof using Hps none.
    intros Hne Hr Hk. unfold filter_any.
    rewrite tbl_len_spec, (nrows_rect _ n), Nat2Z.id by (done || by destruct t).
    rewrite replicate_tests, (mask_criteria_spec _ n) by done. cbn [res_bind].
    erewrite tests_ext; [by apply compress_one_spec|]. intros i _. cbn beta. rewrite fold_or. cbn [orb].
    unfold any_of. clear. induction crits as [|x crits IH]; [done|]. cbn. by rewrite IH.
  Qed.

  (** ** drop *)
  Lemma drop_mask_spec eqb args n P (t : tbl) :
    rect n (contents t) →
    hit_mask eqb args t (tests n P) =
      tests n (λ i, P i || existsb (λ x, existsb (eqb x) args) (row none (contents t) i)).
  Proof using Type.
    clear Hps ps. unfold hit_mask. revert P. induction t as [|[m c] t IH]; intros P Hr.
    - cbn. apply tests_ext. intros i _. by rewrite orb_false_r.
    - cbn [contents map] in Hr. apply list.Forall_cons in Hr as [Hc Hr]. cbn [snd] in Hc.
      cbn [fold_left snd]. rewrite mask_pages_tests by done. rewrite IH by done.
      apply tests_ext. intros i _. cbn. by rewrite orb_assoc.
  Qed.

  Theorem drop_spec eqb (t : tbl) args n :
    t ≠ [] → rect n (contents t) →
    ∃ r, tbl_drop ty ps eqb t args = Ok r ∧ names (contents r) = names (contents t) ∧
      rows none (contents r) =
        selected none (contents t) (λ i, negb (existsb (λ x, existsb (eqb x) args) (row none (contents t) i))) n.
  Proof using Hps none.
    intros Hne Hr. unfold tbl_drop.
    rewrite tbl_len_spec, (nrows_rect _ n), Nat2Z.id by (done || by destruct t).
    rewrite replicate_tests, (drop_mask_spec _ _ n) by done. cbn [orb].
    unfold tests at 1. rewrite map_map. by apply compress_one_spec.
  Qed.
End proofs.

(** ** the string filter *)
Section expr.
  Context {N A T : Type} `{EqDecision N, EqDecision T} (ty : A → T) (none : A) (ps : Z) (Hps : 0 < ps).
  Local Notation tbl := (list (N * column A T)).

  (** the rows restricted to the columns [req] *)
  Lemma sub_rows (t : tbl) (req : list N) n :
    req ≠ [] → rect n (contents t) → (∀ k, k ∈ req → k ∈ t.*1) →
    rows none (map (λ k, (k, default [] (dget (contents t) k))) req)
      = map (λ i, map (λ k, field none (contents t) k i) req) (seq 0 n).
  Proof using Type.
    clear Hps ps. intros Hne Hr Hin.
    assert (Hget : ∀ k, k ∈ req → ∃ l, dget (contents t) k = Some l ∧ length l = n).
    { intros k Hk. destruct (dget_in (contents t) k) as [l Hl].
      - change (k ∈ names (contents t)). rewrite contents_names. by apply Hin.
      - exists l. split; [done|]. apply dget_Some_elem in Hl. exact (proj1 (list.Forall_forall _ _) Hr _ Hl). }
    unfold rows. rewrite (nrows_rect _ n).
    - apply map_ext. intros i. unfold row. rewrite map_map. apply list_fmap_ext.
      intros _ k Hk%elem_of_list_lookup_2. cbn [snd]. destruct (Hget k Hk) as (l & Hl & _). rewrite Hl.
      by apply field_dget.
    - apply Forall_fmap, list.Forall_forall. intros k Hk. cbn. destruct (Hget k Hk) as (l & Hl & Hn). by rewrite Hl.
    - by destruct req.
  Qed.

  Theorem filter_expr_spec (t : tbl) (occurs : N → bool) (f : list A → bool) n :
    NoDup t.*1 → rect n (contents t) → (2 <= length (List.filter occurs t.*1))%nat →
    let passes i := f (map (λ k, field none (contents t) k i) (List.filter occurs t.*1)) in
    ∃ p q, filter_expr ty none ps t occurs f = Ok (p, q) ∧
      names (contents p) = names (contents t) ∧ names (contents q) = names (contents t) ∧
      rows none (contents p) = selected none (contents t) passes n ∧
      rows none (contents q) = selected none (contents t) (λ i, negb (passes i)) n.
  Proof using Hps.
    intros Hnd Hr H2 passes. unfold filter_expr. set (req := List.filter occurs t.*1) in *.
    assert (Hin : ∀ k, k ∈ req → k ∈ t.*1).
    { intros k Hk%elem_of_list_In. apply filter_In in Hk as [Hk _]. by apply elem_of_list_In. }
    assert (Hne : t ≠ []) by (intros ->; cbn in H2; lia).
    rewrite tbl_len_spec, (nrows_rect _ n) by (done || by destruct t).
    destruct (Z.eqb_spec (Z.of_nat n) 0) as [Hz|Hz].
    { assert (n = 0%nat) as -> by lia. exists t, t. split_and!; try done;
        unfold selected; cbn; unfold rows; rewrite (nrows_rect _ 0); try done; by destruct t. }
    destruct (select_names ty ps t req) as (u & Hu & Hc); [|done|done|].
    { apply NoDup_ListNoDup. apply List.NoDup_filter. by apply NoDup_ListNoDup. }
    rewrite Hu. cbn [res_bind]. rewrite (tbl_rows_spec none), Hc, (sub_rows t req n); [|by destruct req|done|done].
    cbn [res_bind]. rewrite map_map. change (map _ (seq 0 n)) with (tests n passes).
    unfold compress_both. rewrite tbl_len_spec, (nrows_rect _ n) by (done || by destruct t).
    destruct (compress_cols_spec ty none ps Hps n passes t Hr) as (p & Hp & Hcp).
    destruct (compress_cols_spec ty none ps Hps n (λ i, negb (passes i)) t Hr) as (q & Hq & Hcq).
    rewrite Hp. cbn [res_bind]. unfold tests in Hq |- *. rewrite map_map, Hq. cbn [res_map].
    exists p, q. split; [done|]. rewrite Hcp, Hcq, !pick_rows_names, !pick_rows_rows by (by destruct t). done.
  Qed.

  (** an expression in which one column occurs *)
  Lemma filter_expr_one (t : tbl) occurs f k :
    List.filter occurs t.*1 = [k] → (0 < tbl_len t) → filter_expr ty none ps t occurs f = Err AttributeError.
  Proof using Type.
    clear Hps. intros Hk Hl. unfold filter_expr. rewrite Hk. destruct (Z.eqb_spec (tbl_len t) 0); [lia|].
    assert (k ∈ t.*1) as Hin.
    { apply elem_of_list_In. eapply proj1, filter_In. rewrite Hk. by left. }
    destruct (dget_in t k Hin) as [c Hc]. unfold tbl_getitem. cbn. rewrite bool_decide_eq_true_2 by done. cbn.
    by rewrite Hc.
  Qed.
End expr.

(** ** comparing native values *)
Section cmp.
  Context (repr : pyval → string).
  Local Notation cmp := (nim_cmp repr).


  Lemma ne_not_eq x y : comparable x y → cmp FM_NE x y = negb (cmp FM_EQ x y).
  Proof.
    intros [->|[c Hc]]; [done|]. unfold nim_cmp. rewrite Hc. destruct x; [done|..]; by destruct c.
  Qed.
  Lemma not_both_eq_ne x y : cmp FM_EQ x y && cmp FM_NE x y = false.
  Proof.
    unfold nim_cmp. destruct (native_order x y) as [c|]; destruct x; try done; try (by destruct c); by destruct (bool_decide _).
  Qed.
  Lemma neither x y : ¬ comparable x y → cmp FM_EQ x y = false ∧ cmp FM_NE x y = false.
  Proof.
    intros Hn. unfold nim_cmp. destruct (native_order x y) as [c|] eqn:E.
    - destruct Hn. right. by rewrite E.
    - destruct x; try done. destruct Hn. by left.
  Qed.
  Lemma not_both_lt_ge x y : cmp FM_LT x y && cmp FM_GE x y = false.
  Proof. unfold nim_cmp. destruct (native_order x y) as [c|]; destruct x; try done; by destruct c. Qed.
  Lemma not_both_gt_le x y : cmp FM_GT x y && cmp FM_LE x y = false.
  Proof. unfold nim_cmp. destruct (native_order x y) as [c|]; destruct x; try done; by destruct c. Qed.

  Lemma lt_ge_exactly x y : comparable x y → x ≠ VNone →
    cmp FM_GE x y = negb (cmp FM_LT x y) ∧ cmp FM_LE x y = negb (cmp FM_GT x y) ∧
    cmp FM_LE x y = cmp FM_LT x y || cmp FM_EQ x y.
  Proof. intros [->|[c Hc]] Hx; [done|]. unfold nim_cmp. rewrite Hc. destruct x; try done; by destruct c. Qed.

  Lemma string_compare_eq a b : String.compare a b = Eq ↔ a = b.
  Proof.
    split; [apply String.compare_eq_iff|]. intros ->. induction b as [|c b IH]; [done|]. cbn.
    unfold Ascii.compare. by rewrite N.compare_refl.
  Qed.

  (** values of one type: the native [==] is equality *)
  Lemma eq_same_type x y k : kind_of x = Some k → kind_of y = Some k → cmp FM_EQ x y = true ↔ x = y.
  Proof.
    intros Hx Hy. unfold nim_cmp.
    assert (Ho : ∀ c, ord_test FM_EQ c = true ↔ c = Eq) by (intros []; done).
    destruct x, y; cbn in Hx, Hy; try congruence; cbn [native_order]; try done; try (rewrite Ho).
    - destruct b, b0; done.
    - rewrite Z.compare_eq_iff. split; congruence.
    - rewrite <- Qceq_alt. split; congruence.
    - rewrite string_compare_eq. split; congruence.
    - rewrite Z.compare_eq_iff. split; congruence.
    - rewrite Z.compare_eq_iff. unfold day_us. split; [intros; f_equal; lia|intros [= ->]; done].
    - rewrite Z.compare_eq_iff. split; congruence.
  Qed.

  Lemma comparable_kinds x y kx ky : kind_of x = Some kx → kind_of y = Some ky →
    comparable x y ↔ x = VNone ∨ kx = ky ∨
      (kx ∈ [K_INT; K_FLOAT] ∧ ky ∈ [K_INT; K_FLOAT]) ∨ (kx ∈ [K_DATE; K_DATETIME] ∧ ky ∈ [K_DATE; K_DATETIME]).
  Proof.
    intros Hx Hy. unfold comparable. rewrite !elem_of_cons, !elem_of_nil.
    destruct x, y; cbn in Hx, Hy; simplify_eq; cbn; unfold is_Some; naive_solver.
  Qed.
End cmp.
