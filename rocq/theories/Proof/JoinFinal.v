(** Joins, reindex, drop_duplicates and lookup on whole tables. *)
From stdpp Require Import strings.
From Verif.Spec Require Import Counts Rows Join PyHash.
From Verif.Spec Require Export TableTerms.
From Verif.Model Require Import Joins.
From Verif.Proof Require Import DictLemmas SliceLemmas ColumnRead ColumnMisc ColumnStatsProofs
  SmallProofs NamesProofs TableBase TableProofs TableRows TableSelect TableMisc JoinBase JoinProofs.
From Coq Require Import ZifyBool.
Local Open Scope Z_scope.

(** ** what the pairs are *)
Section pairs.
  Context {K : Type} `{EqDecision K}.
  Implicit Types lk rk : list K.

  Lemma elem_of_prod {B C} (l : list B) (k : list C) x y : (x, y) ∈ list_prod l k ↔ x ∈ l ∧ y ∈ k.
  Proof. by rewrite !elem_of_list_In, in_prod_iff. Qed.
  Lemma NoDup_prod {B C} (l : list B) (k : list C) : NoDup l → NoDup k → NoDup (list_prod l k).
  Proof.
    intros Hl Hk. induction Hl as [|x l Hx Hl IH]; simpl; [constructor|].
    apply list.NoDup_app. split; [|split; [|done]].
    - by apply (NoDup_fmap_2 (pair x)).
    - intros p (y & -> & _)%elem_of_list_fmap. rewrite elem_of_prod. tauto.
  Qed.
  Lemma NoDup_concat_map {B C} (f : B → list C) (l : list B) :
    NoDup l → (∀ x, x ∈ l → NoDup (f x)) →
    (∀ x y c, x ∈ l → y ∈ l → c ∈ f x → c ∈ f y → x = y) → NoDup (concat (map f l)).
  Proof.
    induction 1 as [|x l Hx Hl IH]; intros Hf Hd; simpl; [constructor|].
    apply list.NoDup_app. split; [apply Hf; by left|]. split.
    - intros c Hc Hin. apply elem_of_list_In, in_concat in Hin as (fl & Hfl & Hcf).
      apply in_map_iff in Hfl as (y & <- & Hy). apply elem_of_list_In in Hy, Hcf.
      apply Hx. rewrite (Hd x y c); [done|by left|by right|done|done].
    - apply IH; [intros; apply Hf; by right|]. intros y z c Hy Hz. apply Hd; by right.
  Qed.
  Lemma elem_concat_map {B C} (f : B → list C) (l : list B) c :
    c ∈ concat (map f l) ↔ ∃ x, x ∈ l ∧ c ∈ f x.
  Proof.
    rewrite elem_of_list_In, in_concat. setoid_rewrite in_map_iff. split.
    - intros (fl & (x & <- & Hx) & Hc). exists x. by rewrite !elem_of_list_In.
    - intros (x & Hx & Hc). rewrite !elem_of_list_In in *. naive_solver.
  Qed.
  Lemma some_elem (l : list Z) o : o ∈ map Some l ↔ ∃ i, o = Some i ∧ i ∈ l.
  Proof. change (map Some l) with (Some <$> l). rewrite elem_of_list_fmap. done. Qed.
  Lemma NoDup_some (l : list Z) : NoDup l → NoDup (map Some l).
  Proof. apply (NoDup_fmap_2 Some). Qed.

  Lemma inner_pairs_elem lk rk p :
    p ∈ inner_pairs lk rk ↔ ∃ i j k, p = (Some i, Some j) ∧ 0 <= i ∧ 0 <= j ∧
      lk !! Z.to_nat i = Some k ∧ rk !! Z.to_nat j = Some k.
  Proof.
    unfold inner_pairs. rewrite elem_concat_map. destruct p as [a b]. split.
    - intros (k & _ & [(i & -> & [Hi Hl]%occ_elem)%some_elem (j & -> & [Hj Hr]%occ_elem)%some_elem]%elem_of_prod).
      naive_solver.
    - intros (i & j & k & [= -> ->] & Hi & Hj & Hl & Hr). exists k. split.
      + apply elem_of_distinct. by eapply elem_of_list_lookup_2.
      + apply elem_of_prod. rewrite !some_elem. setoid_rewrite occ_elem. naive_solver.
  Qed.
  Lemma inner_pairs_NoDup lk rk : NoDup (inner_pairs lk rk).
  Proof.
    apply NoDup_concat_map; [apply NoDup_distinct|..].
    - intros k _. apply NoDup_prod; apply NoDup_some, occ_NoDup.
    - intros k k' [a b] _ _ [(i & -> & [_ H1]%occ_elem)%some_elem _]%elem_of_prod
        [(i' & [= <-] & [_ H2]%occ_elem)%some_elem _]%elem_of_prod. congruence.
  Qed.

  Definition right_side (rk : list K) k : list (option Z) :=
    match occ rk k with [] => [None] | js => map Some js end.
  Lemma right_side_elem rk k o :
    o ∈ right_side rk k ↔ (o = None ∧ k ∉ rk) ∨ ∃ j, o = Some j ∧ 0 <= j ∧ rk !! Z.to_nat j = Some k.
  Proof.
    unfold right_side. destruct (occ rk k) as [|j0 js] eqn:E.
    - apply occ_nil in E. rewrite elem_of_list_singleton. split; [naive_solver|].
      intros [[? _]|(j & _ & _ & Hj%elem_of_list_lookup_2)]; done.
    - rewrite some_elem, <- E. setoid_rewrite occ_elem. split; [naive_solver|].
      intros [[_ Hn]|?]; [|naive_solver]. apply occ_nil in Hn. congruence.
  Qed.
  Lemma left_pairs_elem lk rk p :
    p ∈ left_pairs lk rk ↔ p ∈ inner_pairs lk rk ∨
      ∃ i k, p = (Some i, None) ∧ 0 <= i ∧ lk !! Z.to_nat i = Some k ∧ k ∉ rk.
  Proof.
    unfold left_pairs. fold (right_side rk). rewrite inner_pairs_elem, elem_concat_map.
    destruct p as [a b]. split.
    - intros (k & _ & [(i & -> & [Hi Hl]%occ_elem)%some_elem Hb]%elem_of_prod).
      apply (right_side_elem rk k b) in Hb. naive_solver.
    - intros H. assert (∃ i k, a = Some i ∧ 0 <= i ∧ lk !! Z.to_nat i = Some k ∧ b ∈ right_side rk k) as (i & k & -> & Hi & Hk & Hb).
      { setoid_rewrite right_side_elem. naive_solver. }
      exists k. split; [apply elem_of_distinct; by eapply elem_of_list_lookup_2|].
      apply elem_of_prod. split; [|done]. apply some_elem. exists i. by rewrite occ_elem.
  Qed.
  Lemma left_pairs_NoDup lk rk : NoDup (left_pairs lk rk).
  Proof.
    apply NoDup_concat_map; [apply NoDup_distinct|..].
    - intros k _. apply NoDup_prod; [apply NoDup_some, occ_NoDup|].
      pose proof (occ_NoDup rk k) as H. destruct (occ rk k); [apply NoDup_singleton|by apply NoDup_some].
    - intros k k' [a b] _ _ [(i & -> & [_ H1]%occ_elem)%some_elem _]%elem_of_prod
        [(i' & [= <-] & [_ H2]%occ_elem)%some_elem _]%elem_of_prod. congruence.
  Qed.
  Lemma outer_pairs_elem lk rk pairs p :
    outer_pairs lk rk pairs →
    p ∈ pairs ↔ p ∈ left_pairs lk rk ∨
      ∃ j k, p = (None, Some j) ∧ 0 <= j ∧ rk !! Z.to_nat j = Some k ∧ k ∉ lk.
  Proof.
    intros (ks & Hks & ->). rewrite elem_of_app, elem_concat_map. apply or_iff_compat_l. split.
    - intros (k & Hk & (j & -> & [Hj Hr]%occ_elem)%elem_of_list_fmap). rewrite Hks in Hk.
      apply elem_of_list_filter in Hk as [Hk _]. naive_solver.
    - intros (j & k & -> & Hj & Hr & Hk). exists k. split.
      + rewrite Hks. apply elem_of_list_filter. split; [done|]. apply elem_of_distinct. by eapply elem_of_list_lookup_2.
      + apply elem_of_list_fmap. exists j. by rewrite occ_elem.
  Qed.
  Lemma outer_pairs_NoDup lk rk pairs : outer_pairs lk rk pairs → NoDup pairs.
  Proof.
    intros (ks & Hks & ->). apply list.NoDup_app. split; [apply left_pairs_NoDup|]. split.
    - intros [a b] Hp Hq. apply elem_concat_map in Hq as (k & _ & (j & [= -> ->] & _)%elem_of_list_fmap).
      apply left_pairs_elem in Hp as [(? & ? & ? & ? & _)%inner_pairs_elem|(? & ? & ? & _)]; done.
    - apply NoDup_concat_map.
      + rewrite Hks. apply list.NoDup_filter, NoDup_distinct.
      + intros k _. apply (NoDup_fmap_2_strong (λ j, (None, Some j))); [|apply occ_NoDup]. intros x y _ _ [=]. done.
      + intros k k' c _ _ (j & -> & [_ H1]%occ_elem)%elem_of_list_fmap (j' & [= <-] & [_ H2]%occ_elem)%elem_of_list_fmap.
        congruence.
  Qed.
End pairs.

Section joins.
  Context {A T : Type} `{EqDecision T} (ty : A → T) (none : A) (ps : Z).
  Context (ps_pos : 0 < ps).
  Context {K : Type} `{EqDecision K} (keyc : A → K) (set_order : list (list K) → list (list K)).
  Notation tbl := (table string A T).
  Notation keys t ks n := (row_keys none keyc (contents t) ks n).

  Lemma row_keys_length (t : tbl) ks n : length (keys t ks n) = n.
  Proof. unfold row_keys. by rewrite map_length, seq_length. Qed.

  Lemma tbl_index_list (t : tbl) n ks :
    rect n (contents t) → ks ≠ [] → (∀ k, k ∈ ks → k ∈ t.*1) →
    tbl_index keyc t ks = Ok (index_keys (keys t ks n)).
  Proof.
    intros Hr Hne Hin. unfold tbl_index. rewrite col_keys_spec by done. cbn [res_map].
    rewrite (keys_zip none keyc t ks n); [done|done|].
    intros k Hk. destruct (dget_in t k) as [c Hc]; [by apply Hin|]. exists (col_iter c).
    rewrite contents_dget, Hc. split; [done|]. by eapply rect_dget.
  Qed.

  Lemma no_minus_fst n m pairs :
    Forall (ok_pair n m) pairs → Forall (λ p : option Z * option Z, p.1 ≠ None) pairs → -1 ∉ (map enc pairs).*1.
  Proof.
    intros Hok Hs ([x y] & Hx & ([a b] & Hab & Hin)%elem_of_list_fmap)%elem_of_list_fmap. simpl in *. subst x.
    pose proof (proj1 (list.Forall_forall _ _) Hok _ Hin) as [H1 _]. pose proof (proj1 (list.Forall_forall _ _) Hs _ Hin) as H2.
    injection Hab as Ha _. simpl in *. destruct a as [i|]; simpl in *; [lia|done].
  Qed.
  Lemma no_minus_snd n m pairs :
    Forall (ok_pair n m) pairs → Forall (λ p : option Z * option Z, p.2 ≠ None) pairs → -1 ∉ (map enc pairs).*2.
  Proof.
    intros Hok Hs ([x y] & Hx & ([a b] & Hab & Hin)%elem_of_list_fmap)%elem_of_list_fmap. simpl in *. subst y.
    pose proof (proj1 (list.Forall_forall _ _) Hok _ Hin) as [_ H1]. pose proof (proj1 (list.Forall_forall _ _) Hs _ Hin) as H2.
    injection Hab as _ Ha. simpl in *. destruct b as [i|]; simpl in *; [lia|done].
  Qed.

  Lemma joined_intro (t u r : tbl) lc rc ns pairs :
    names (contents r) = lc ++ ns → NoDup (lc ++ ns) → fresh_names lc rc ns →
    rows none (contents r) = map (join_row none (contents t) (contents u) lc rc) pairs →
    joined none (contents t) (contents u) lc rc pairs (contents r).
  Proof. intros. by exists ns. Qed.

  Lemma inner_join_spec (t u : tbl) n m lkeys rkeys lc rc :
    rect n (contents t) → rect m (contents u) → args_ok t u lkeys rkeys lc rc → lkeys ≠ [] →
    ∃ r, join ty none ps keyc set_order Inner t u lkeys rkeys lc rc = Ok r ∧
      joined none (contents t) (contents u) lc rc (inner_pairs (keys t lkeys n) (keys u rkeys m)) (contents r).
  Proof.
    intros Ht Hu (Hl & Hk1 & Hk2 & Hlc & Hrc & Hc1 & Hc2 & Hnd) Hne.
    unfold join. rewrite jointype_check_ok by done. cbn [res_bind].
    rewrite (tbl_index_list t n), (tbl_index_list u m) by (done || (by destruct lkeys, rkeys)). cbn [res_bind].
    rewrite inner_mapping_spec. set (pairs := inner_pairs _ _).
    assert (Hok : Forall (ok_pair n m) pairs).
    { pose proof (inner_ok (keys t lkeys n) (keys u rkeys m)) as H. by rewrite !row_keys_length in H. }
    assert (Hs : Forall (λ p, p.1 ≠ None ∧ p.2 ≠ None) pairs) by apply inner_some.
    destruct (join_halves ty none ps ps_pos t u n m lc rc pairs) as (r & ns & Hr & H1 & H2 & H3 & H4); try done.
    - right. eapply no_minus_fst; [done|]. eapply list.Forall_impl; [exact Hs|]. by intros ? [].
    - right. eapply no_minus_snd; [done|]. eapply list.Forall_impl; [exact Hs|]. by intros ? [].
    - exists r. split; [exact Hr|]. by exists ns.
  Qed.

  Lemma left_join_spec (t u : tbl) n m lkeys rkeys lc rc :
    rect n (contents t) → rect m (contents u) → args_ok t u lkeys rkeys lc rc → lkeys ≠ [] →
    (∀ name c p, name ∈ rc → dget u name = Some c → p ∈ c → pdata p ≠ []) →
    ∃ r, join ty none ps keyc set_order Left t u lkeys rkeys lc rc = Ok r ∧
      joined none (contents t) (contents u) lc rc (left_pairs (keys t lkeys n) (keys u rkeys m)) (contents r).
  Proof.
    intros Ht Hu (Hl & Hk1 & Hk2 & Hlc & Hrc & Hc1 & Hc2 & Hnd) Hne He.
    unfold join. rewrite jointype_check_ok by done. cbn [res_bind].
    rewrite (tbl_index_list t n), (tbl_index_list u m) by (done || (by destruct lkeys, rkeys)). cbn [res_bind].
    rewrite left_mapping_spec. set (pairs := left_pairs _ _).
    assert (Hok : Forall (ok_pair n m) pairs).
    { pose proof (left_ok (keys t lkeys n) (keys u rkeys m)) as H. by rewrite !row_keys_length in H. }
    assert (Hs : Forall (λ p : option Z * option Z, p.1 ≠ None) pairs) by apply left_some.
    destruct (join_halves ty none ps ps_pos t u n m lc rc pairs) as (r & ns & Hr & H1 & H2 & H3 & H4); try done.
    - right. by eapply no_minus_fst.
    - left. intros name c Hn Hc. apply list.Forall_forall. intros p. by apply (He name c).
    - exists r. split; [exact Hr|]. by exists ns.
  Qed.

  Lemma outer_join_spec (t u : tbl) n m lkeys rkeys lc rc :
    rect n (contents t) → rect m (contents u) → args_ok t u lkeys rkeys lc rc → lkeys ≠ [] →
    (∀ l, set_order l ≡ₚ l) →
    (∀ name c p, name ∈ lc → dget t name = Some c → p ∈ c → pdata p ≠ []) →
    (∀ name c p, name ∈ rc → dget u name = Some c → p ∈ c → pdata p ≠ []) →
    ∃ r pairs, join ty none ps keyc set_order Outer t u lkeys rkeys lc rc = Ok r ∧
      outer_pairs (keys t lkeys n) (keys u rkeys m) pairs ∧
      joined none (contents t) (contents u) lc rc pairs (contents r).
  Proof.
    intros Ht Hu (Hl & Hk1 & Hk2 & Hlc & Hrc & Hc1 & Hc2 & Hnd) Hne Hso He1 He2.
    unfold join. rewrite jointype_check_ok by done. cbn [res_bind].
    rewrite (tbl_index_list t n), (tbl_index_list u m) by (done || (by destruct lkeys, rkeys)). cbn [res_bind].
    destruct (outer_mapping_spec set_order (keys t lkeys n) (keys u rkeys m) Hso) as (pairs & Hp & ->).
    assert (Hok : Forall (ok_pair n m) pairs).
    { pose proof (outer_ok _ _ _ Hp) as H. by rewrite !row_keys_length in H. }
    destruct (join_halves ty none ps ps_pos t u n m lc rc pairs) as (r & ns & Hr & H1 & H2 & H3 & H4); try done.
    - left. intros name c Hn Hc. apply list.Forall_forall. intros p. by apply (He1 name c).
    - left. intros name c Hn Hc. apply list.Forall_forall. intros p. by apply (He2 name c).
    - exists r, pairs. split; [exact Hr|]. split; [done|]. by exists ns.
  Qed.

  Lemma cross_join_spec (t u : tbl) n m lkeys rkeys lc rc :
    rect n (contents t) → rect m (contents u) → args_ok t u lkeys rkeys lc rc →
    (0 < n)%nat → (0 < m)%nat →
    ∃ r, join ty none ps keyc set_order Cross t u lkeys rkeys lc rc = Ok r ∧
      joined none (contents t) (contents u) lc rc (cross_pairs n m) (contents r).
  Proof.
    intros Ht Hu (Hl & Hk1 & Hk2 & Hlc & Hrc & Hc1 & Hc2 & Hnd) Hn Hm.
    unfold join. rewrite jointype_check_ok by done. cbn [res_bind].
    rewrite !tbl_len_spec.
    rewrite (nrows_rect _ n Ht), (nrows_rect _ m Hu).
    2:{ destruct u as [|p u]; [|done]. destruct rc as [|a rc]; [done|].
        specialize (Hc2 a ltac:(by left)). by apply elem_of_nil in Hc2. }
    2:{ destruct t as [|p t]; [|done]. destruct lc as [|a lc]; [done|].
        specialize (Hc1 a ltac:(by left)). by apply elem_of_nil in Hc1. }
    rewrite cross_mapping_spec by done. cbn [res_bind].
    pose proof (cross_ok n m) as Hok. pose proof (cross_some n m) as Hs.
    destruct (join_halves ty none ps ps_pos t u n m lc rc (cross_pairs n m)) as (r & ns & Hr & H1 & H2 & H3 & H4); try done.
    - right. eapply no_minus_fst; [done|]. eapply list.Forall_impl; [exact Hs|]. by intros ? [].
    - right. eapply no_minus_snd; [done|]. eapply list.Forall_impl; [exact Hs|]. by intros ? [].
    - exists r. split; [exact Hr|]. by exists ns.
  Qed.

  Lemma cross_join_empty (t u : tbl) n m lkeys rkeys lc rc :
    rect n (contents t) → rect m (contents u) → args_ok t u lkeys rkeys lc rc →
    n = 0%nat ∨ m = 0%nat →
    join ty none ps keyc set_order Cross t u lkeys rkeys lc rc = Err ValueError.
  Proof.
    intros Ht Hu (Hl & Hk1 & Hk2 & Hlc & Hrc & Hc1 & Hc2 & Hnd) Hn.
    unfold join. rewrite jointype_check_ok by done. cbn [res_bind].
    rewrite !tbl_len_spec.
    rewrite (nrows_rect _ n Ht), (nrows_rect _ m Hu).
    2:{ destruct u as [|p u]; [|done]. destruct rc as [|a rc]; [done|].
        specialize (Hc2 a ltac:(by left)). by apply elem_of_nil in Hc2. }
    2:{ destruct t as [|p t]; [|done]. destruct lc as [|a lc]; [done|].
        specialize (Hc1 a ltac:(by left)). by apply elem_of_nil in Hc1. }
    unfold cross_mapping. rewrite !py_range01 by lia.
    replace (list_prod _ _) with ([] : list (Z * Z)); [done|].
    destruct Hn as [-> | ->]; [done|]. symmetry; apply (list_prod_nil_r (seqZ 0 (Z.of_nat n))).
  Qed.

  (** ** names, whatever the rows *)
  Lemma join_left_names (t : tbl) ix n cols acc r :
    join_left ty none ps t ix n cols acc = Ok r → NoDup acc.*1 →
    r.*1 = acc.*1 ++ cols ∧ NoDup r.*1.
  Proof.
    revert acc. induction cols as [|name cols IH]; intros acc; cbn [join_left].
    { intros [= <-] ?. by rewrite app_nil_r. }
    destruct (decide (name ∈ acc.*1)) as [|Hn]; [done|]. destruct (dget t name) as [c|]; [|done].
    destruct (join_col _ _ _ _ _ _ _ _) as [c'|]; cbn [res_bind]; [|done]. intros H Hnd.
    rewrite dset_fresh in H by done. apply IH in H as [-> H].
    - rewrite fmap_app, <- app_assoc in *. done.
    - rewrite fmap_app. simpl. apply list.NoDup_app. split; [done|]. split; [|apply NoDup_singleton].
      intros x Hx ->%elem_of_list_singleton. done.
  Qed.
  Lemma join_right_names (u : tbl) ix n cols acc r :
    join_right ty none ps u ix n cols acc = Ok r → NoDup acc.*1 →
    ∃ ns, r.*1 = acc.*1 ++ ns ∧ fresh_names acc.*1 cols ns ∧ NoDup r.*1.
  Proof.
    revert acc. induction cols as [|name cols IH]; intros acc; cbn [join_right].
    { intros [= <-] ?. exists []. by rewrite app_nil_r. }
    destruct (unique_name_spec name acc.*1) as (nn & -> & Hfree & Hnn).
    rewrite decide_False by done. destruct (dget u name) as [c|]; [|done].
    destruct (join_col _ _ _ _ _ _ _ _) as [c'|]; cbn [res_bind]; [|done]. intros H Hnd.
    rewrite dset_fresh in H by done. apply IH in H as (ns & -> & Hf & H).
    - rewrite fmap_app in *. simpl in *. exists (nn :: ns). rewrite <- app_assoc in *. split; [done|]. split; [|done].
      simpl. split; [done|]. split; [by destruct Hnn as [[_ ?]|[? _]]|]. split; [|done].
      by destruct Hnn as [[? _]|[_ ?]].
    - rewrite fmap_app. simpl. apply list.NoDup_app. split; [done|]. split; [|apply NoDup_singleton].
      intros x Hx ->%elem_of_list_singleton. done.
  Qed.

  Lemma join_names kind (t u r : tbl) lkeys rkeys lc rc :
    join ty none ps keyc set_order kind t u lkeys rkeys lc rc = Ok r →
    ∃ ns, names (contents r) = lc ++ ns ∧ NoDup (lc ++ ns) ∧ fresh_names lc rc ns.
  Proof.
    unfold join. destruct (jointype_check t u lkeys rkeys lc rc) as [[]|]; [|done]. cbn [res_bind].
    match goal with |- context [res_bind ?x _] => destruct x as [pairs|] end; [|done]. cbn [res_bind].
    destruct (join_left _ _ _ _ _ _ _ _) as [r1|] eqn:E; [|done]. cbn [res_bind]. intros H.
    apply join_left_names in E as [E Hnd]; [|constructor]. simpl in E.
    apply join_right_names in H as (ns & Hr & Hf & Hnd'); [|done].
    exists ns. rewrite contents_names. rewrite E in *. rewrite Hr in Hnd'. by rewrite Hr.
  Qed.

  (** a left column named twice *)
  Lemma join_left_dup (t : tbl) ix n a l acc :
    a ∈ acc.*1 → join_left ty none ps t ix n (a :: l) acc = Err ValueError.
  Proof. intros H. cbn [join_left]. by rewrite decide_True. Qed.

  (** ** reindex *)
  Lemma reindex_names_spec (t : tbl) index ns acc :
    (∀ k, k ∈ ns → k ∈ t.*1) → NoDup (acc.*1 ++ ns) → Forall (λ i, -1 <= i) index →
    (zlen index <= ps ∧ ∀ name c, name ∈ ns → dget t name = Some c → no_empty c) ∨ -1 ∉ index →
    ∃ r, reindex_names ty none ps t index ns acc = Ok r ∧
      contents r = contents acc ++ map (λ name, (name, picked none t index name)) ns.
  Proof.
    intros Hin Hnd Hi. revert acc Hnd. induction ns as [|name ns IH]; intros acc Hnd Hs.
    { exists acc. split; [done|]. by rewrite app_nil_r. }
    destruct (dget_in t name) as [c Hc]; [apply Hin; by left|].
    assert (name ∉ acc.*1) as Hn.
    { intros Hn. apply list.NoDup_app in Hnd as (_ & Hd & _). apply (Hd _ Hn). by left. }
    cbn [reindex_names]. rewrite decide_False by done. rewrite Hc.
    destruct (reindex_col_spec ty none ps ps_pos c index) as (c' & Hc' & Hcc); [|done|].
    { destruct Hs as [[? Hs]|]; [left; split; [apply (Hs name c); [by left|done]|done]|by right]. }
    rewrite Hc'. cbn [res_bind]. rewrite dset_fresh by done.
    destruct (IH ltac:(intros; apply Hin; by right) (acc ++ [(name, c')])) as (r & Hr & Hcr).
    { rewrite fmap_app. simpl. by rewrite <- app_assoc. }
    { destruct Hs as [[? Hs]|]; [left; split; [done|]; intros nm cc ?; apply (Hs nm cc); by right|by right]. }
    exists r. split; [done|]. rewrite Hcr, contents_app, <- app_assoc. simpl. f_equal. f_equal. f_equal.
    unfold picked. by rewrite contents_dget, Hc, Hcc.
  Qed.

  Lemma dget_self (t : tbl) : NoDup t.*1 → map (λ n, (n, default [] (dget (contents t) n))) t.*1 = contents t.
  Proof.
    intros Hnd. change (map ?f t.*1) with (f <$> t.*1). rewrite <- list_fmap_compose. unfold contents at 2.
    apply list_fmap_ext. intros _ [n c] Hin%elem_of_list_lookup_2. simpl. f_equal.
    rewrite contents_dget. apply dget_Some in Hin; [|done]. by rewrite Hin.
  Qed.

  Lemma reindex_spec (t : tbl) index :
    NoDup t.*1 → Forall (λ i, -1 <= i) index →
    (zlen index <= ps ∧ ∀ name c, dget t name = Some c → no_empty c) ∨ -1 ∉ index →
    ∃ r, reindex ty none ps t index = Ok r ∧
      contents r = map (λ c, (c.1, map (pick none c.2) index)) (contents t).
  Proof.
    intros Hnd Hi Hs. destruct (reindex_names_spec t index t.*1 []) as (r & Hr & Hc); [done|done|done| |].
    { destruct Hs as [[? Hs]|]; [left; split; [done|]; intros nm cc ?; apply (Hs nm cc)|by right]. }
    exists r. split; [done|]. rewrite Hc. simpl.
    transitivity (map (λ c, (c.1, map (pick none c.2) index)) (map (λ n, (n, default [] (dget (contents t) n))) t.*1)).
    - by rewrite (map_map _ _ t.*1).
    - by rewrite (dget_self t Hnd).
  Qed.

  Definition opt_ix (i : Z) : option Z := if i =? -1 then None else Some i.

  Lemma picked_rows (v : view (N := string) (A := A)) (r : view (N := string) (A := A)) index :
    v ≠ [] → Forall (λ i, -1 <= i) index → r = map (λ c, (c.1, map (pick none c.2) index)) v →
    names r = names v ∧ rect (length index) r ∧ rows none r = map (λ i, orow none v (opt_ix i)) index.
  Proof.
    intros Hne Hi ->. split; [|split].
    - unfold names. induction v as [|[n l] v IH]; [done|]. simpl. f_equal. destruct v; [done|]. by apply IH.
    - unfold rect. apply Forall_fmap, Forall_true. intros c. simpl. by rewrite map_length.
    - assert (Hz : map (λ c : string * list A, (c.1, map (pick none c.2) index)) v
        = zip_with (λ n f, (n, map f index)) v.*1 (map (λ c i, pick none c.2 i) v)).
      { clear. induction v as [|[n l] v IH]; simpl; [done|]. by f_equal. }
      rewrite Hz, rows_of_columns; [|by rewrite fmap_length, map_length|by destruct v].
      apply list_fmap_ext. intros _ i Hin%elem_of_list_lookup_2. rewrite map_map.
      pose proof (proj1 (list.Forall_forall _ _) Hi _ Hin) as Hi0; cbn beta in Hi0.
      unfold opt_ix, pick. destruct (Z.eqb_spec i (-1)); simpl; [done|]. unfold row. apply map_ext. intros c.
      by rewrite SliceLemmas.znth_lookup by lia.
  Qed.

  Lemma reindex_rows (t : tbl) index :
    NoDup t.*1 → t ≠ [] → Forall (λ i, -1 <= i) index →
    (zlen index <= ps ∧ ∀ name c p, dget t name = Some c → p ∈ c → pdata p ≠ []) ∨ -1 ∉ index →
    ∃ r, reindex ty none ps t index = Ok r ∧ names (contents r) = names (contents t) ∧
      rows none (contents r) = map (λ i, orow none (contents t) (if i =? -1 then None else Some i)) index.
  Proof.
    intros Hnd Hne Hi Hs. destruct (reindex_spec t index Hnd Hi) as (r & Hr & Hc).
    { destruct Hs as [[? Hs]|]; [left; split; [done|]|by right].
      intros name c Hd. apply list.Forall_forall. intros p. by apply (Hs name c). }
    exists r. split; [done|].
    apply (picked_rows (contents t)) in Hc as (? & _ & ?); [done| |done]. by destruct t.
  Qed.

  (** ** drop_duplicates *)
  Lemma drop_duplicates_spec (hash : list K → Z) (t : tbl) n args :
    NoDup t.*1 → t ≠ [] → rect n (contents t) → (∀ k, k ∈ args → k ∈ t.*1) →
    let ks := keys t (match args with [] => t.*1 | _ => args end) n in
    (∀ k1 k2, k1 ∈ ks → k2 ∈ ks → hash k1 = hash k2 → k1 = k2) →
    ∃ r ixs, drop_duplicates ty none ps keyc hash t args = Ok r ∧ first_occurrences ks ixs ∧
      names (contents r) = names (contents t) ∧
      rows none (contents r) = map (λ i, row none (contents t) (Z.to_nat i)) ixs.
  Proof.
    intros Hnd Hne Hr Hin. set (args' := match args with [] => t.*1 | _ => args end). cbv zeta. intros Hinj.
    assert (Hin' : ∀ k, k ∈ args' → k ∈ t.*1) by (by destruct args).
    destruct (unique_index_spec none keyc hash t args' n) as (ixs & Hix & Hf).
    { unfold args'. destruct args; [|done]. by destruct t. }
    { intros k Hk. destruct (dget_in t k) as [c Hc]; [by apply Hin'|]. exists (col_iter c).
      rewrite contents_dget, Hc. split; [done|]. by eapply rect_dget. }
    { done. }
    assert (Hpos : ∀ i, i ∈ ixs → 0 <= i) by (intros i Hi; by apply Hf in Hi as [? _]).
    destruct (reindex_rows t ixs) as (r & Hrr & Hn & Hrows); [done|done| | |].
    { apply list.Forall_forall. intros i Hi%Hpos. lia. }
    { right. intros Hi%Hpos. lia. }
    exists r, ixs. split; [|split; [done|split; [done|]]].
    - unfold drop_duplicates. fold args'. by rewrite Hix.
    - rewrite Hrows. apply list_fmap_ext. intros _ i Hi%elem_of_list_lookup_2%Hpos.
      destruct (Z.eqb_spec i (-1)); [lia|done].
  Qed.
End joins.
