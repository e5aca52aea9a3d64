(** Gathering rows by position, indexes as lists, for reindex, joins and lookup. *)
From stdpp Require Import strings.
From Verif.Spec Require Import Counts Rows Join.
From Verif.Model Require Import Joins.
From Verif.Proof Require Import DictLemmas SliceLemmas ColumnRead ColumnMisc ColumnStatsProofs
  SmallProofs TableBase TableProofs TableRows TableSelect.
From Coq Require Import ZifyBool.
Local Open Scope Z_scope.

(** ** distinct, occ *)
Section distinct.
  Context {K : Type} `{EqDecision K}.
  Implicit Types ks : list K.

  Lemma elem_of_distinct ks k : k ∈ distinct ks ↔ k ∈ ks.
  Proof.
    induction ks as [|a ks IH]; simpl; [done|].
    rewrite !elem_of_cons, elem_of_list_filter, IH. destruct (decide (k = a)); naive_solver.
  Qed.
  Lemma NoDup_distinct ks : NoDup (distinct ks).
  Proof.
    induction ks as [|a ks IH]; simpl; constructor.
    - intros [? _]%elem_of_list_filter. done.
    - by apply list.NoDup_filter.
  Qed.
  Lemma distinct_snoc ks k :
    distinct (ks ++ [k]) = if decide (k ∈ distinct ks) then distinct ks else distinct ks ++ [k].
  Proof.
    induction ks as [|a ks IH]; [done|].
    cbn [distinct app]. rewrite IH.
    destruct (decide (k ∈ distinct ks)) as [Hk|Hk].
    - rewrite decide_True; [done|]. rewrite elem_of_cons, elem_of_list_filter.
      destruct (decide (k = a)); naive_solver.
    - rewrite list.filter_app, filter_cons, filter_nil.
      destruct (decide (k = a)) as [->|Hka].
      + rewrite decide_False by (intros H; by apply H). rewrite app_nil_r.
        rewrite decide_True by left. done.
      + rewrite decide_True by done. rewrite decide_False; [done|].
        intros [?|[_ ?]%elem_of_list_filter]%elem_of_cons; done.
  Qed.

  Lemma occ_posn ks k : occ ks k = posn k (zip (seqZ 0 (zlen ks)) ks).
  Proof. done. Qed.
  Lemma occ_nil ks k : occ ks k = [] ↔ k ∉ ks.
  Proof.
    unfold occ, positions. split.
    - intros H Hk. apply elem_of_list_lookup in Hk as [i Hi].
      assert ((Z.of_nat i, k) ∈ filter (λ q, q.2 = k) (zip (seqZ 0 (zlen ks)) ks)) as Hin.
      { apply elem_of_list_filter. split; [done|]. apply elem_of_lookup_zip_with.
        exists i, (Z.of_nat i), k. split; [done|]. split; [|done].
        apply lookup_seqZ. apply lookup_lt_Some in Hi. lia. }
      destruct (filter _ _); [by apply elem_of_nil in Hin|done].
    - intros Hk. destruct (filter _ _) as [|[i k'] l] eqn:E; [done|].
      assert ((i, k') ∈ filter (λ q, q.2 = k) (zip (seqZ 0 (zlen ks)) ks)) as Hin by (rewrite E; left).
      apply elem_of_list_filter in Hin as [Hk' Hin]. simpl in Hk'. subst k'.
      apply elem_of_zip_r in Hin. done.
  Qed.
  Lemma occ_elem ks k i : i ∈ occ ks k ↔ 0 <= i ∧ ks !! Z.to_nat i = Some k.
  Proof.
    unfold occ, positions. rewrite elem_of_list_fmap. split.
    - intros ([j k'] & -> & Hin). apply elem_of_list_filter in Hin as [Hk Hin]. simpl in *. subst k'.
      apply elem_of_lookup_zip_with in Hin as (n & x & y & [= -> ->] & Hx & Hy).
      apply lookup_seqZ in Hx as [-> Hn]. split; [lia|]. by replace (Z.to_nat (0 + Z.of_nat n)) with n by lia.
    - intros [Hi Hk]. exists (i, k). split; [done|]. apply elem_of_list_filter. split; [done|].
      apply elem_of_lookup_zip_with. exists (Z.to_nat i), i, k. split; [done|]. split; [|done].
      apply lookup_seqZ. apply lookup_lt_Some in Hk. lia.
  Qed.
  Lemma occ_NoDup ks k : NoDup (occ ks k).
  Proof.
    unfold occ, positions.
    apply NoDup_fmap_2_strong.
    - intros [i1 k1] [i2 k2] [H1 _]%elem_of_list_filter [H2 _]%elem_of_list_filter. simpl in *. congruence.
    - apply list.NoDup_filter. apply (NoDup_fmap_1 fst).
      rewrite fst_zip by (rewrite seqZ_length; lia). apply NoDup_seqZ.
  Qed.
End distinct.

(** ** the index as a list *)
Section index.
  Context {K : Type} `{EqDecision K}.

  Lemma enumerate_snoc (ks : list (list K)) k : enumerate (ks ++ [k]) = enumerate ks ++ [(zlen ks, k)].
  Proof.
    unfold enumerate. rewrite app_length. simpl.
    replace (Z.of_nat (length ks + 1)) with (zlen ks + 1) by lia.
    rewrite seqZ_app by lia. rewrite zip_with_app by (rewrite seqZ_length; lia). done.
  Qed.

  Lemma index_keys_fst (ks : list (list K)) : (index_keys ks).*1 = distinct ks.
  Proof.
    induction ks as [|k ks IH] using rev_ind; [done|].
    unfold index_keys. rewrite enumerate_snoc, fold_left_app. cbn [fold_left fst snd].
    rewrite dset_keys. fold (index_keys ks). rewrite IH, distinct_snoc. done.
  Qed.

  Lemma index_keys_list (ks : list (list K)) :
    index_keys ks = map (λ k, (k, occ ks k)) (distinct ks).
  Proof.
    pose proof (index_keys_spec ks) as [_ Hi].
    rewrite <- index_keys_fst. change ((index_keys ks).*1) with (map fst (index_keys ks)). rewrite map_map.
    symmetry. rewrite <- (map_id (index_keys ks)) at 2. apply list_fmap_ext.
    intros _ [k ixs] Hin%elem_of_list_lookup_2. simpl. f_equal. by apply Hi in Hin as [_ ->].
  Qed.

  Lemma dget_map_keys {V} (f : list K → V) (ks : list (list K)) k :
    dget (map (λ k, (k, f k)) ks) k = if decide (k ∈ ks) then Some (f k) else None.
  Proof.
    induction ks as [|a ks IH]; simpl.
    { destruct (decide (k ∈ [])) as [H|]; [by apply elem_of_nil in H|done]. }
    destruct (decide (k = a)) as [->|Hne].
    - by rewrite decide_True by left.
    - rewrite IH. destruct (decide (k ∈ ks)).
      + by rewrite decide_True by (by right).
      + rewrite decide_False; [done|]. by intros [?|?]%elem_of_cons.
  Qed.
End index.

Section gather.
  Context {A T : Type} `{EqDecision T} (ty : A → T) (none : A) (ps : Z).
  Context (ps_pos : 0 < ps).

  (** the value at position [i], [none] for -1 *)
  Definition pick (l : list A) (i : Z) : A := if i =? -1 then none else default none (znth l i).

  Definition no_empty (c : column A T) : Prop := Forall (λ p, pdata p ≠ []) c.

  Lemma gather_loop_pick (c pre : column A T) indices values :
    no_empty c ∨ -1 ∉ indices → Forall (λ i, -1 <= i) indices →
    Forall2 (λ i v, i = -1 ∨ v = znth (col_iter pre) i) indices values →
    ∃ values', gather_loop (zlen (col_iter pre)) c indices values = Ok values' ∧
      Forall2 (λ i v, i = -1 ∨ v = znth (col_iter (pre ++ c)) i) indices values'.
  Proof.
    intros Hne Hi. revert pre values. induction c as [|p c IH]; intros pre values Hv.
    { exists values. split; [done|]. by rewrite app_nil_r. }
    assert (Hne' : no_empty c ∨ -1 ∉ indices).
    { destruct Hne as [Hne|]; [left; by apply list.Forall_cons in Hne as [_ ?]|by right]. }
    cbn [gather_loop]. unfold gather_page.
    match goal with |- context [if ?b then _ else _] => assert (b = false) as -> end.
    { destruct (decide (pdata p = [])) as [He|He].
      - rewrite (bool_decide_eq_true_2 (pdata p = [])) by done. rewrite andb_true_r.
        apply not_true_is_false. intros (i & Hin%elem_of_list_In & Hb)%existsb_exists.
        pose proof (proj1 (list.Forall_forall _ _) Hi i Hin) as Hi0; cbn beta in Hi0. unfold plen in Hb. rewrite He in Hb.
        simpl in Hb. assert (i = -1) as -> by lia.
        destruct Hne as [[Hp _]%list.Forall_cons|Hn]; [by apply Hp|by apply Hn].
      - rewrite (bool_decide_eq_false_2 (pdata p = [])) by done. apply andb_false_r. }
    cbn [res_bind].
    replace (zlen (col_iter pre) + plen p) with (zlen (col_iter (pre ++ [p]))).
    2:{ rewrite col_iter_app, app_length. unfold plen, col_iter. simpl. rewrite app_nil_r. lia. }
    replace (pre ++ p :: c) with ((pre ++ [p]) ++ c) by (by rewrite <- app_assoc).
    apply IH; [done|]. clear IH Hne Hne'. rewrite col_iter_app.
    assert (Hp : col_iter [p] = pdata p) by (unfold col_iter; simpl; apply app_nil_r). rewrite Hp. clear Hp.
    induction Hv as [|i v indices values Hv _ IHv]; simpl; [constructor|].
    apply list.Forall_cons in Hi as [Hi0 Hi]. constructor; [|by apply IHv].
    destruct (Z.eqb_spec i (-1)); [by left|]. right. destruct Hv as [?|Hv]; [done|].
    rewrite SliceLemmas.znth_app. unfold plen. rewrite orb_false_r.
    destruct (Z.ltb_spec i (zlen (col_iter pre))) as [H1|H1].
    - destruct (Z.leb_spec (zlen (col_iter pre)) i); [lia|]. simpl. by rewrite Hv.
    - destruct (Z.leb_spec (zlen (col_iter pre)) i); [|lia].
      destruct (Z.ltb_spec i (zlen (col_iter pre ++ pdata p))) as [H2|H2]; simpl; [done|]; rewrite app_length in H2.
      rewrite Hv. rewrite !SliceLemmas.znth_None by lia. done.
  Qed.

  Lemma get_by_indices_pick (c : column A T) indices :
    no_empty c ∨ -1 ∉ indices → Forall (λ i, -1 <= i) indices →
    ∃ values, get_by_indices c indices = Ok values ∧ length values = length indices ∧
      where_none none indices values = map (pick (col_iter c)) indices.
  Proof.
    intros Hne Hi.
    destruct (gather_loop_pick c [] indices (replicate (length indices) None) Hne Hi) as (vs & Hvs & Hf).
    { clear. induction indices as [|i indices IH]; simpl; constructor; [|done].
      right. unfold znth. by destruct (i <? 0). }
    exists vs. split; [done|]. split; [symmetry; by eapply Forall2_length|].
    unfold where_none, pick. clear -Hf. simpl in Hf.
    induction Hf as [|i v indices vs Hv _ IH]; simpl; [done|]. rewrite IH. f_equal.
    destruct (Z.eqb_spec i (-1)); [done|]. destruct Hv as [?|Hv]; [done|]. by rewrite Hv.
  Qed.

  Lemma where_none_pos indices values :
    -1 ∉ indices → length values = length indices →
    where_none none indices values = map (default none) values.
  Proof.
    unfold where_none. revert values. induction indices as [|i indices IH]; intros [|v values] Hi Hl; try done.
    simpl. rewrite IH; [|by intros ?; apply Hi; right|by injection Hl].
    destruct (Z.eqb_spec i (-1)) as [->|]; [|done]. exfalso. apply Hi. left.
  Qed.

  (** ** reindex *)
  Lemma existsb_minus (l : list Z) : existsb (λ i, i =? -1) l = true ↔ -1 ∈ l.
  Proof.
    rewrite existsb_exists. setoid_rewrite <- elem_of_list_In. split.
    - intros (x & Hx & He). by assert (x = -1) as -> by lia.
    - intros H. exists (-1). split; [done|lia].
  Qed.

  Lemma elem_of_slice {B} (l : list B) s e x : x ∈ drop s (take e l) → x ∈ l.
  Proof.
    intros Hx. rewrite <- (take_drop e l). apply elem_of_app. left.
    rewrite <- (take_drop s (take e l)). apply elem_of_app. by right.
  Qed.

  Lemma reindex_loop_spec (c : column A T) (index : list Z) rounds e col :
    (no_empty c ∧ zlen index <= ps) ∨ -1 ∉ index → Forall (λ i, -1 <= i) index →
    0 <= e <= zlen index → zlen index - e < ps * Z.of_nat rounds →
    (zlen index <= ps → e = 0) →
    col_iter col = map (pick (col_iter c)) (take (Z.to_nat e) index) →
    ∃ c', reindex_col ty none ps c index (step_loop rounds ps (zlen index) e) col = Ok c' ∧
      col_iter c' = map (pick (col_iter c)) index.
  Proof.
    intros Hside Hi. revert e col. induction rounds as [|rounds IH]; intros e col He Hr H0 Hcol; [lia|].
    cbn [step_loop reindex_col].
    rewrite getslice_between by lia.
    set (e' := Z.min (e + ps) (zlen index)).
    set (ixs := drop (Z.to_nat e) (take (Z.to_nat e') index)).
    assert (Hsub : ∀ i, i ∈ ixs → i ∈ index) by (intros i; apply elem_of_slice).
    assert (Hixs : Forall (λ i, -1 <= i) ixs).
    { apply list.Forall_forall. intros i Hin%Hsub. by apply (proj1 (list.Forall_forall _ _) Hi). }
    destruct (get_by_indices_pick c ixs) as (vs & Hvs & Hlen & Hw); [|done|].
    { destruct Hside as [[? _]|Hn]; [by left|right]. intros ?%Hsub. done. }
    rewrite Hvs. cbn [res_bind].
    assert (Hpage : reindex_page none (zlen index) ixs vs = Ok (map (pick (col_iter c)) ixs)).
    { unfold reindex_page. destruct (existsb (λ i, i =? -1) ixs) eqn:E.
      - apply existsb_minus in E. destruct Hside as [[_ Hps]|Hn]; [|by apply Hsub in E].
        assert (e = 0) as -> by auto. assert (e' = zlen index) as He' by lia.
        assert (ixs = index) as Hixs'.
        { unfold ixs. rewrite He', Nat2Z.id, firstn_all. done. }
        rewrite Hixs' at 1. rewrite Z.eqb_refl. by rewrite Hw.
      - rewrite <- Hw. rewrite where_none_pos; [done| |done].
        intros Hin%existsb_minus. congruence. }
    rewrite Hpage. cbn [res_bind].
    assert (Hcol' : col_iter (col_extend ty ps col (map (pick (col_iter c)) ixs))
                    = map (pick (col_iter c)) (take (Z.to_nat e') index)).
    { rewrite col_extend_iter by done. rewrite Hcol, <- map_app. f_equal.
      unfold ixs. replace (take (Z.to_nat e) index) with (take (Z.to_nat e) (take (Z.to_nat e') index)).
      - by rewrite take_drop.
      - rewrite take_take. f_equal. lia. }
    destruct (Z.eqb_spec e' (zlen index)) as [Hend|Hend].
    - cbn [reindex_col]. eexists. split; [reflexivity|]. rewrite Hcol', Hend, Nat2Z.id, firstn_all. done.
    - apply IH; [lia|lia|lia|done].
  Qed.

  Lemma reindex_col_spec (c : column A T) (index : list Z) :
    (no_empty c ∧ zlen index <= ps) ∨ -1 ∉ index → Forall (λ i, -1 <= i) index →
    ∃ c', reindex_col ty none ps c index (page_steps ps (zlen index)) [] = Ok c' ∧
      col_iter c' = map (pick (col_iter c)) index.
  Proof.
    intros Hside Hi. apply reindex_loop_spec; [done|done|lia| |done|done].
    rewrite py_range_length. unfold range_count.
    assert ((0 <? ps) = true) as -> by lia.
    rewrite Z2Nat.id by (apply Z.div_pos; lia). Z.div_mod_to_equations. nia.
  Qed.

  (** ** join columns *)
  Lemma pick_range (l : list A) s e :
    0 <= s → e <= zlen l → map (pick l) (py_range s e 1) = drop (Z.to_nat s) (take (Z.to_nat e) l).
  Proof.
    intros Hs He. revert s e Hs He.
    apply (range_ind (λ s e, 0 <= s → e <= zlen l → map (pick l) (py_range s e 1) = drop (Z.to_nat s) (take (Z.to_nat e) l)) 1); [lia|..].
    - intros s e Hse Hs He. rewrite py_range_nil by lia. rewrite drop_ge; [done|]. rewrite take_length. lia.
    - intros s e Hse IH Hs He. rewrite py_range_cons by lia. simpl. rewrite IH by lia.
      destruct (lookup_lt_is_Some_2 l (Z.to_nat s)) as [x Hx]; [lia|].
      rewrite (drop_S (take (Z.to_nat e) l) x (Z.to_nat s)).
      + f_equal; [|f_equal; lia]. unfold pick. destruct (Z.eqb_spec s (-1)); [lia|].
        rewrite SliceLemmas.znth_lookup, Hx by lia. done.
      + rewrite lookup_take by lia. done.
  Qed.

  Lemma join_page_spec (c : column A T) (ixs : list Z) s e :
    no_empty c ∨ -1 ∉ ixs → Forall (λ i, -1 <= i < zlen (col_iter c)) ixs →
    0 <= s → s <= e <= zlen ixs →
    join_page none c (int_col ps ixs) s e
    = Ok (map (pick (col_iter c)) (drop (Z.to_nat s) (take (Z.to_nat e) ixs))).
  Proof.
    intros Hne Hi Hs He. unfold join_page, int_col.
    rewrite col_getslice_pos by done. cbn [res_bind].
    unfold col_new. rewrite col_extend_iter by done. simpl app.
    rewrite getslice_between by lia. set (arr := drop _ _).
    assert (Hsub : ∀ i, i ∈ arr → i ∈ ixs) by (intros i; apply elem_of_slice).
    destruct ((zlen arr =? 0) || bool_decide (arr = py_range s e 1)) eqn:E.
    - rewrite col_getslice_pos by done. f_equal. rewrite getslice_between by lia.
      apply orb_true_iff in E as [E|E].
      + assert (length arr = 0)%nat as Hl by lia.
        assert (arr = []) as Harr by (by apply nil_length_inv). rewrite Harr.
        unfold arr in Hl. rewrite drop_length, take_length in Hl.
        simpl. apply drop_ge. rewrite take_length. lia.
      + apply bool_decide_eq_true_1 in E. rewrite E. symmetry.
        destruct (decide (s < e)).
        * apply pick_range; [done|].
          assert (e - 1 ∈ arr) as Hin.
          { rewrite E. apply elem_of_py_range; [lia|]. unfold in_range.
            rewrite Z.mod_1_r. lia. }
          apply Hsub in Hin. pose proof (proj1 (list.Forall_forall _ _) Hi _ Hin) as Hi0; cbn beta in Hi0. lia.
        * rewrite py_range_nil by lia. simpl. symmetry. apply drop_ge. rewrite take_length. lia.
    - destruct (get_by_indices_pick c arr) as (vs & Hvs & _ & Hw).
      { destruct Hne as [?|Hn]; [by left|right]. by intros ?%Hsub. }
      { apply list.Forall_forall. intros i Hin%Hsub.
        pose proof (proj1 (list.Forall_forall _ _) Hi _ Hin) as Hi0; cbn beta in Hi0. lia. }
      rewrite Hvs. cbn [res_map]. by rewrite Hw.
  Qed.

  Lemma join_col_spec (c : column A T) (ixs : list Z) :
    no_empty c ∨ -1 ∉ ixs → Forall (λ i, -1 <= i < zlen (col_iter c)) ixs →
    ∃ c', join_col ty none ps c (int_col ps ixs) (zlen ixs) (py_range 0 (zlen ixs + 1) ps) [] = Ok c' ∧
      col_iter c' = map (pick (col_iter c)) ixs.
  Proof.
    intros Hne Hi.
    assert (H : ∀ s b, b = zlen ixs + 1 → 0 <= s → ∀ col,
      col_iter col = map (pick (col_iter c)) (take (Z.to_nat s) ixs) →
      ∃ c', join_col ty none ps c (int_col ps ixs) (zlen ixs) (py_range s b ps) col = Ok c' ∧
        col_iter c' = map (pick (col_iter c)) ixs).
    { apply (range_ind (λ s b, b = zlen ixs + 1 → 0 <= s → ∀ col,
        col_iter col = map (pick (col_iter c)) (take (Z.to_nat s) ixs) →
        ∃ c', join_col ty none ps c (int_col ps ixs) (zlen ixs) (py_range s b ps) col = Ok c' ∧
        col_iter c' = map (pick (col_iter c)) ixs) ps ps_pos).
      - intros s b Hsb -> Hs col Hcol. rewrite py_range_nil by lia.
        exists col. split; [done|]. rewrite Hcol, firstn_all2 by lia. done.
      - intros s b Hsb IH -> Hs col Hcol. rewrite py_range_cons by lia. cbn [join_col].
        rewrite join_page_spec by (done || lia). cbn [res_bind].
        apply IH; [done|lia|]. rewrite col_iter_app. unfold col_new.
        rewrite (col_extend_iter ty ps []) by done. simpl app. rewrite Hcol, <- map_app. f_equal.
        set (e := Z.min (s + ps) (zlen ixs)).
        replace (take (Z.to_nat s) ixs) with (take (Z.to_nat s) (take (Z.to_nat e) ixs)).
        + rewrite take_drop. unfold e. rewrite Z2Nat.inj_min, Nat2Z.id, take_min_length. done.
        + rewrite take_take. f_equal. lia. }
    by apply H.
  Qed.
End gather.
