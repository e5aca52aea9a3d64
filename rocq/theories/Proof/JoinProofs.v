(** Joins: the index pairs and the columns taken from them. *)
From stdpp Require Import strings.
From Verif.Spec Require Import Counts Rows Join.
From Verif.Model Require Import Joins.
From Verif.Proof Require Import DictLemmas SliceLemmas ColumnRead ColumnMisc ColumnStatsProofs
  SmallProofs NamesProofs TableBase TableProofs TableRows TableSelect JoinBase.
From Coq Require Import ZifyBool.
Local Open Scope Z_scope.

(** the positions as the code writes them *)
Definition enc (p : option Z * option Z) : Z * Z := (default (-1) p.1, default (-1) p.2).

Definition ok_pos (n : nat) (o : option Z) : Prop := match o with None => True | Some i => 0 <= i < Z.of_nat n end.
Definition ok_pair (n m : nat) (p : option Z * option Z) : Prop := ok_pos n p.1 ∧ ok_pos m p.2.

Lemma list_prod_nil_r {B C} (l : list B) : list_prod l ([] : list C) = [].
Proof. induction l; simpl; [done|]. by rewrite IHl. Qed.

Lemma map_list_prod {B C B' C'} (f : B → B') (g : C → C') l k :
  map (λ p, (f p.1, g p.2)) (list_prod l k) = list_prod (map f l) (map g k).
Proof.
  induction l as [|x l IH]; simpl; [done|]. rewrite map_app, IH, !map_map. done.
Qed.
Lemma enc_prod l k :
  map enc (list_prod l k) = list_prod (map (default (-1)) l) (map (default (-1)) k).
Proof. apply (map_list_prod (default (-1)) (default (-1))). Qed.
Lemma default_some l : map (default (-1)) (map Some l) = l.
Proof. rewrite map_map. simpl. apply map_id. Qed.

Lemma py_range01 n : 0 <= n → py_range 0 n 1 = seqZ 0 n.
Proof.
  intros Hn. unfold py_range, range_count. simpl.
  replace ((n - 0 + 1 - 1) / 1) with n by (rewrite Z.div_1_r; lia).
  rewrite <- (map_id (seqZ 0 n)) at 2. apply map_ext. intros k. lia.
Qed.

Section mapping.
  Context {K : Type} `{EqDecision K}.
  Implicit Types lk rk : list (list K).

  Lemma dget_index rk k :
    dget (index_keys rk) k = match occ rk k with [] => None | js => Some js end.
  Proof.
    rewrite index_keys_list, dget_map_keys.
    destruct (decide (k ∈ distinct rk)) as [Hk|Hk].
    - destruct (occ rk k) eqn:E; [|done]. apply occ_nil in E. rewrite elem_of_distinct in Hk. by destruct E.
    - replace (occ rk k) with ([] : list Z); [done|]. symmetry. apply occ_nil.
      by rewrite <- elem_of_distinct.
  Qed.

  Lemma inner_mapping_spec lk rk :
    inner_mapping (index_keys lk) (index_keys rk) = map enc (inner_pairs lk rk).
  Proof.
    unfold inner_mapping, inner_pairs. rewrite concat_map, map_map.
    rewrite (index_keys_list lk), map_map. f_equal. apply map_ext. intros k. cbn [fst snd].
    rewrite dget_index, enc_prod, !default_some.
    destruct (occ rk k); [|done]. by rewrite list_prod_nil_r.
  Qed.
  Lemma left_mapping_spec lk rk :
    left_mapping (index_keys lk) (index_keys rk) = map enc (left_pairs lk rk).
  Proof.
    unfold left_mapping, left_pairs. rewrite concat_map, map_map.
    rewrite (index_keys_list lk), map_map. f_equal. apply map_ext. intros k. cbn [fst snd].
    rewrite dget_index, enc_prod, !default_some. f_equal.
    destruct (occ rk k); [done|]. by rewrite default_some.
  Qed.

  Lemma unused_fold rk (ks : list (list K)) lk (unused : list (list K)) :
    (∀ k, k ∈ ks → occ lk k ≠ []) →
    fold_left (λ (unused : list (list K)) e,
        match list_prod e.2 (default [-1] (dget (index_keys rk) e.1)) with
        | [] => unused
        | _ => filter (λ k, k ≠ e.1) unused
        end) (map (λ k, (k, occ lk k)) ks) unused
    = filter (λ k, k ∉ ks) unused.
  Proof.
    revert unused. induction ks as [|k ks IH]; intros unused Hne; simpl.
    { induction unused as [|x l IHl]; [done|]. rewrite filter_cons_True by (by intros ?%elem_of_nil). by f_equal. }
    rewrite IH by (intros; apply Hne; by right).
    assert (∃ p l, list_prod (occ lk k) (default [-1] (dget (index_keys rk) k)) = p :: l) as (p & l & ->).
    { specialize (Hne k ltac:(by left)). rewrite dget_index.
      destruct (occ lk k) as [|i is]; [done|]. destruct (occ rk k) as [|j js]; simpl; eauto. }
    rewrite list_filter_filter. apply list_filter_iff. intros x. rewrite not_elem_of_cons. tauto.
  Qed.

  Lemma outer_mapping_spec set_order lk rk :
    (∀ l, set_order l ≡ₚ l) →
    ∃ pairs, outer_pairs lk rk pairs ∧
      outer_mapping set_order (index_keys lk) (index_keys rk) = map enc pairs.
  Proof.
    intros Hso. unfold outer_mapping.
    set (unused := fold_left _ _ _).
    assert (unused = right_only lk rk) as Hu.
    { unfold unused, right_only. rewrite (index_keys_list lk), index_keys_fst, unused_fold.
      - apply list_filter_iff. intros k. by rewrite elem_of_distinct.
      - intros k Hk. rewrite occ_nil. rewrite elem_of_distinct in Hk. auto. }
    rewrite Hu.
    eexists. split.
    - exists (set_order (right_only lk rk)). split; [apply Hso|reflexivity].
    - rewrite map_app, left_mapping_spec. f_equal.
      rewrite concat_map, map_map. f_equal. apply map_ext. intros k.
      unfold dget_or. rewrite dget_index, map_map. by destruct (occ rk k).
  Qed.

  Lemma cross_mapping_spec n m :
    (0 < n)%nat → (0 < m)%nat →
    cross_mapping (Z.of_nat n) (Z.of_nat m) = Ok (map enc (cross_pairs n m)).
  Proof.
    intros Hn Hm. unfold cross_mapping, cross_pairs. rewrite enc_prod, !default_some.
    rewrite !py_range01 by lia. destruct n as [|n], m as [|m]; try lia.
    rewrite !(seqZ_cons 0) by lia. done.
  Qed.

  (** positions of the pairs are rows *)
  Lemma occ_range lk k : Forall (λ i, 0 <= i < zlen lk) (occ lk k).
  Proof.
    apply list.Forall_forall. intros i [Hi Hl]%occ_elem. apply lookup_lt_Some in Hl. lia.
  Qed.
  Lemma occ_ok lk k : Forall (ok_pos (length lk)) (map Some (occ lk k)).
  Proof. apply Forall_fmap. eapply list.Forall_impl; [apply occ_range|]. done. Qed.
  Lemma Forall_prod {B C} (P : B → Prop) (Q : C → Prop) l k :
    Forall P l → Forall Q k → Forall (λ p, P p.1 ∧ Q p.2) (list_prod l k).
  Proof.
    intros Hl Hk. apply list.Forall_forall. intros [x y] [Hx Hy]%elem_of_list_In%in_prod_iff.
    apply elem_of_list_In in Hx, Hy. split; simpl.
    - by apply (proj1 (list.Forall_forall _ _) Hl).
    - by apply (proj1 (list.Forall_forall _ _) Hk).
  Qed.
  Lemma inner_ok lk rk : Forall (ok_pair (length lk) (length rk)) (inner_pairs lk rk).
  Proof.
    apply Forall_concat, Forall_fmap, Forall_true. intros k. apply Forall_prod; apply occ_ok.
  Qed.
  Lemma left_ok lk rk : Forall (ok_pair (length lk) (length rk)) (left_pairs lk rk).
  Proof.
    apply Forall_concat, Forall_fmap, Forall_true. intros k. apply Forall_prod; [apply occ_ok|].
    pose proof (occ_ok rk k) as H. destruct (occ rk k); [by repeat constructor|done].
  Qed.
  Lemma outer_ok lk rk pairs : outer_pairs lk rk pairs → Forall (ok_pair (length lk) (length rk)) pairs.
  Proof.
    intros (ks & _ & ->). apply list.Forall_app. split; [apply left_ok|].
    apply Forall_concat, Forall_fmap, Forall_true. intros k. simpl. apply Forall_fmap.
    eapply list.Forall_impl; [apply occ_range|]. done.
  Qed.
  Lemma cross_ok n m : Forall (ok_pair n m) (cross_pairs n m).
  Proof.
    apply Forall_prod; apply Forall_fmap, list.Forall_forall; intros i Hi%elem_of_seqZ; simpl; lia.
  Qed.
  Lemma inner_some lk rk : Forall (λ p, p.1 ≠ None ∧ p.2 ≠ None) (inner_pairs lk rk).
  Proof.
    apply Forall_concat, Forall_fmap, Forall_true. intros k.
    apply (Forall_prod (λ o : option Z, o ≠ None) (λ o : option Z, o ≠ None));
      apply Forall_fmap, Forall_true; done.
  Qed.
  Lemma left_some lk rk : Forall (λ p : option Z * option Z, p.1 ≠ None) (left_pairs lk rk).
  Proof.
    apply Forall_concat, Forall_fmap, Forall_true. intros k.
    eapply list.Forall_impl; [apply (Forall_prod (λ o : option Z, o ≠ None) (λ _, True))|by intros ? []].
    - apply Forall_fmap, Forall_true; done.
    - by apply Forall_true.
  Qed.
  Lemma cross_some n m : Forall (λ p : option Z * option Z, p.1 ≠ None ∧ p.2 ≠ None) (cross_pairs n m).
  Proof.
    apply (Forall_prod (λ o : option Z, o ≠ None) (λ o : option Z, o ≠ None));
      apply Forall_fmap, Forall_true; done.
  Qed.
End mapping.

(** ** rows of a table given by columns over one list of pairs *)
Lemma rows_of_columns {N A P} `{EqDecision N} (none : A) (ns : list N) (fs : list (P → A)) (ps : list P) :
  length ns = length fs → fs ≠ [] →
  rows none (zip_with (λ n f, (n, map f ps)) ns fs) = map (λ p, map (λ f, f p) fs) ps.
Proof.
  intros Hl Hne.
  assert (Hr : rect (length ps) (zip_with (λ n f, (n, map f ps)) ns fs)).
  { clear Hne. revert fs Hl. induction ns as [|n ns IH]; intros [|f fs] Hl; try done; simpl; constructor.
    - simpl. apply map_length.
    - apply IH. by injection Hl. }
  unfold rows. rewrite (nrows_rect _ _ Hr).
  2:{ by destruct ns, fs. }
  apply list_eq. intros i. change (map ?f ?l) with (f <$> l). rewrite !list_lookup_fmap.
  destruct (decide (i < length ps)%nat) as [Hi|Hi].
  - rewrite lookup_seq_lt by done. simpl. destruct (lookup_lt_is_Some_2 ps i Hi) as [p Hp]. rewrite Hp. simpl. f_equal.
    clear Hr Hne. revert fs Hl. induction ns as [|n ns IH]; intros [|f fs] Hl; try done. simpl.
    f_equal; [|by injection Hl as Hl; apply IH]. change (map f ps) with (f <$> ps). by rewrite list_lookup_fmap, Hp.
  - rewrite lookup_seq_ge by lia. rewrite lookup_ge_None_2 by lia. done.
Qed.

Lemma zip_names {N A P} (ns : list N) (fs : list (P → A)) (ps : list P) :
  length ns = length fs → names (zip_with (λ n f, (n, map f ps)) ns fs) = ns.
Proof.
  unfold names. revert fs. induction ns as [|n ns IH]; intros [|f fs] Hl; try done. simpl. f_equal.
  apply IH. by injection Hl.
Qed.

Section joins.
  Context {A T : Type} `{EqDecision T} (ty : A → T) (none : A) (ps : Z).
  Context (ps_pos : 0 < ps).
  Notation tbl := (table string A T).

  (** the values of column [name] at [ixs] *)
  Definition picked (t : tbl) (ixs : list Z) (name : string) : list A :=
    map (pick none (default [] (dget (contents t) name))) ixs.

  Definition side_ok (t : tbl) (cols : list string) (ixs : list Z) : Prop :=
    (∀ name c, name ∈ cols → dget t name = Some c → no_empty c) ∨ -1 ∉ ixs.

  Lemma rect_dget (t : tbl) n name c :
    rect n (contents t) → dget t name = Some c → length (col_iter c) = n.
  Proof.
    induction t as [|[m d] t IH]; [done|]. intros [H1 H2]%list.Forall_cons. simpl.
    case_decide; [by intros [= <-]|]. by apply IH.
  Qed.

  Lemma join_left_spec (t : tbl) n ixs cols acc :
    rect n (contents t) → (∀ name, name ∈ cols → name ∈ t.*1) →
    Forall (λ i, -1 <= i < Z.of_nat n) ixs → side_ok t cols ixs → NoDup (acc.*1 ++ cols) →
    ∃ r, join_left ty none ps t (int_col ps ixs) (zlen ixs) cols acc = Ok r ∧
      contents r = contents acc ++ map (λ name, (name, picked t ixs name)) cols.
  Proof.
    intros Hr Hin Hi. revert acc. induction cols as [|name cols IH]; intros acc Hs Hnd.
    { exists acc. split; [done|]. by rewrite app_nil_r. }
    destruct (dget_in t name) as [c Hc]; [apply Hin; by left|].
    assert (name ∉ acc.*1) as Hn.
    { intros Hn. apply list.NoDup_app in Hnd as (_ & Hd & _). apply (Hd _ Hn). by left. }
    cbn [join_left]. rewrite decide_False by done. rewrite Hc.
    destruct (join_col_spec ty none ps ps_pos c ixs) as (c' & Hc' & Hcc).
    { destruct Hs as [Hs|]; [left; apply (Hs name c); [by left|done]|by right]. }
    { by rewrite (rect_dget t n name c). }
    rewrite Hc'. cbn [res_bind]. rewrite dset_fresh by done.
    destruct (IH ltac:(intros; apply Hin; by right) (acc ++ [(name, c')])) as (r & Hr' & Hcr).
    { destruct Hs as [Hs|]; [left; intros nm cc ?; apply (Hs nm cc); by right|by right]. }
    { rewrite fmap_app. simpl. by rewrite <- app_assoc. }
    exists r. split; [done|]. rewrite Hcr, contents_app, <- app_assoc. simpl. f_equal. f_equal.
    f_equal. unfold picked. by rewrite contents_dget, Hc, Hcc.
  Qed.

  Lemma join_right_spec (u : tbl) n ixs cols acc :
    rect n (contents u) → (∀ name, name ∈ cols → name ∈ u.*1) →
    Forall (λ i, -1 <= i < Z.of_nat n) ixs → side_ok u cols ixs → NoDup acc.*1 →
    ∃ r ns, join_right ty none ps u (int_col ps ixs) (zlen ixs) cols acc = Ok r ∧
      fresh_names acc.*1 cols ns ∧ NoDup (acc.*1 ++ ns) ∧
      contents r = contents acc ++ zip_with (λ n name, (n, picked u ixs name)) ns cols.
  Proof.
    intros Hr Hin Hi. revert acc. induction cols as [|name cols IH]; intros acc Hs Hnd.
    { exists acc, []. split; [done|]. split; [done|]. by rewrite !app_nil_r. }
    destruct (dget_in u name) as [c Hc]; [apply Hin; by left|].
    cbn [join_right].
    destruct (unique_name_spec name acc.*1) as (nn & -> & Hfree & Hnn).
    rewrite decide_False by done. rewrite Hc.
    destruct (join_col_spec ty none ps ps_pos c ixs) as (c' & Hc' & Hcc).
    { destruct Hs as [Hs|]; [left; apply (Hs name c); [by left|done]|by right]. }
    { by rewrite (rect_dget u n name c). }
    rewrite Hc'. cbn [res_bind]. rewrite dset_fresh by done.
    destruct (IH ltac:(intros; apply Hin; by right) (acc ++ [(nn, c')])) as (r & ns & Hr' & Hf & Hns & Hcr).
    { destruct Hs as [Hs|]; [left; intros nm cc ?; apply (Hs nm cc); by right|by right]. }
    { rewrite fmap_app. simpl. apply list.NoDup_app. split; [done|]. split; [|apply NoDup_singleton].
      intros x Hx ->%elem_of_list_singleton. done. }
    rewrite fmap_app in Hf, Hns. simpl in Hf, Hns.
    exists r, (nn :: ns). split; [done|]. split; [|split].
    - simpl. split; [done|]. split; [by destruct Hnn as [[_ ?]|[? _]]|]. split; [|done].
      by destruct Hnn as [[? _]|[_ ?]].
    - by rewrite <- app_assoc in Hns.
    - rewrite Hcr, contents_app, <- app_assoc. simpl. f_equal. f_equal.
      f_equal. unfold picked. by rewrite contents_dget, Hc, Hcc.
  Qed.

  Lemma picked_ofield (t : tbl) m (name : string) (sel : (option Z * option Z) → option Z) pairs :
    Forall (λ p, ok_pos m (sel p)) pairs →
    picked t (map (λ p, default (-1) (sel p)) pairs) name
    = map (λ p, ofield none (contents t) name (sel p)) pairs.
  Proof.
    intros H. unfold picked. rewrite map_map. apply list_fmap_ext. intros _ p Hp%elem_of_list_lookup_2.
    pose proof (proj1 (list.Forall_forall _ _) H p Hp) as Ho; cbn beta in Ho.
    unfold pick, ofield. destruct (sel p) as [i|]; simpl in *; [|done].
    destruct (Z.eqb_spec i (-1)); [lia|]. rewrite SliceLemmas.znth_lookup by lia.
    by rewrite field_dget.
  Qed.

  Lemma jointype_check_ok (t u : tbl) lk rk lc rc :
    (∀ n, n ∈ lk → n ∈ t.*1) → (∀ n, n ∈ rk → n ∈ u.*1) → length lk = length rk →
    lc ≠ [] → rc ≠ [] → (∀ n, n ∈ lc → n ∈ t.*1) → (∀ n, n ∈ rc → n ∈ u.*1) →
    jointype_check t u lk rk lc rc = Ok tt.
  Proof.
    intros H1 H2 H3 H4 H5 H6 H7. unfold jointype_check.
    rewrite (proj2 (forallb_in lk t.*1)) by done. rewrite (proj2 (forallb_in rk u.*1)) by done.
    rewrite (proj2 (forallb_in lc t.*1)) by done. rewrite (proj2 (forallb_in rc u.*1)) by done.
    rewrite H3, Nat.eqb_refl. simpl. rewrite !bool_decide_eq_false_2 by done. done.
  Qed.

  Lemma fresh_names_length taken wanted given :
    fresh_names taken wanted given → length given = length wanted.
  Proof.
    clear. revert taken given. induction wanted as [|w ws IH]; intros taken [|g gs] H; try done; simpl in *.
    f_equal. destruct H as (_ & _ & _ & H). by eapply IH.
  Qed.

  (** what both halves give for a list of pairs *)
  Lemma join_columns (t u : tbl) n m lc rc pairs :
    rect n (contents t) → rect m (contents u) →
    lc ≠ [] → (∀ k, k ∈ lc → k ∈ t.*1) → (∀ k, k ∈ rc → k ∈ u.*1) → NoDup lc →
    Forall (ok_pair n m) pairs →
    side_ok t lc (map enc pairs).*1 → side_ok u rc (map enc pairs).*2 →
    ∃ r ns,
      (let left := int_col ps (map enc pairs).*1 in
       let right := int_col ps (map enc pairs).*2 in
       let n := Z.max (col_len left) (col_len right) in
       res_bind (join_left ty none ps t left n lc []) (λ new_table,
       join_right ty none ps u right n rc new_table)) = Ok r ∧
      NoDup (lc ++ ns) ∧ fresh_names lc rc ns ∧
      contents r = zip_with (λ n f, (n, map f pairs)) (lc ++ ns)
        (map (λ name p, ofield none (contents t) name p.1) lc ++ map (λ name p, ofield none (contents u) name p.2) rc).
  Proof.
    intros Ht Hu Hlc Hinl Hinr Hnd Hp Hsl Hsr. cbv zeta.
    set (l1 := (map enc pairs).*1) in *. set (l2 := (map enc pairs).*2) in *.
    assert (Hl1 : zlen l1 = zlen pairs) by (unfold l1; by rewrite fmap_length, map_length).
    assert (Hl2 : zlen l2 = zlen pairs) by (unfold l2; by rewrite fmap_length, map_length).
    assert (Hlen : Z.max (col_len (int_col ps l1)) (col_len (int_col ps l2)) = zlen pairs).
    { rewrite !col_len_iter. unfold int_col, col_new. rewrite !col_extend_iter by done. simpl. lia. }
    rewrite Hlen.
    assert (E1 : l1 = map (λ p, default (-1) p.1) pairs).
    { unfold l1. change ((map enc pairs).*1) with (map fst (map enc pairs)). by rewrite map_map. }
    assert (E2 : l2 = map (λ p, default (-1) p.2) pairs).
    { unfold l2. change ((map enc pairs).*2) with (map snd (map enc pairs)). by rewrite map_map. }
    assert (Hok1 : Forall (λ p, ok_pos n (p.1)) pairs) by (eapply list.Forall_impl; [exact Hp|]; by intros ? []).
    assert (Hok2 : Forall (λ p, ok_pos m (p.2)) pairs) by (eapply list.Forall_impl; [exact Hp|]; by intros ? []).
    destruct (join_left_spec t n l1 lc []) as (r1 & Hr1 & Hc1); [done|done| |done|done|].
    { rewrite E1. apply Forall_fmap. eapply list.Forall_impl; [exact Hok1|]. intros [[i|] ?]; simpl; lia. }
    rewrite Hl1 in Hr1. rewrite Hr1. cbn [res_bind]. simpl in Hc1.
    assert (Hn1 : r1.*1 = lc).
    { rewrite <- contents_names, Hc1. unfold names. change (map ?f ?l) with (f <$> l).
      rewrite <- list_fmap_compose. simpl. by rewrite list_fmap_id. }
    destruct (join_right_spec u m l2 rc r1) as (r & ns & Hr & Hf & Hns & Hc); [done|done| |done|by rewrite Hn1|].
    { rewrite E2. apply Forall_fmap. eapply list.Forall_impl; [exact Hok2|]. intros [? [i|]]; simpl; lia. }
    rewrite Hl2 in Hr. rewrite Hn1 in *.
    exists r, ns. split; [done|].
    pose proof (fresh_names_length _ _ _ Hf) as Hlns.
    assert (Hcon : contents r = zip_with (λ n f, (n, map f pairs)) (lc ++ ns)
       (map (λ name p, ofield none (contents t) name p.1) lc ++ map (λ name p, ofield none (contents u) name p.2) rc)).
    { rewrite Hc, Hc1, zip_with_app by (by rewrite map_length). f_equal.
      - clear -Hok1 E1. induction lc as [|nm lc IH]; simpl; [done|]. f_equal; [|done]. f_equal.
        rewrite E1. by apply (picked_ofield t n nm fst).
      - clear -Hok2 E2. revert ns. induction rc as [|nm rc IH]; intros [|k ns]; simpl; try done. f_equal; [|done]. f_equal.
        rewrite E2. by apply (picked_ofield u m nm snd). }
    done.
  Qed.

  (** the rows that both halves give for a list of pairs *)
  Lemma join_halves (t u : tbl) n m lc rc pairs :
    rect n (contents t) → rect m (contents u) →
    lc ≠ [] → (∀ k, k ∈ lc → k ∈ t.*1) → (∀ k, k ∈ rc → k ∈ u.*1) → NoDup lc →
    Forall (ok_pair n m) pairs →
    side_ok t lc (map enc pairs).*1 → side_ok u rc (map enc pairs).*2 →
    ∃ r ns,
      (let left := int_col ps (map enc pairs).*1 in
       let right := int_col ps (map enc pairs).*2 in
       let n := Z.max (col_len left) (col_len right) in
       res_bind (join_left ty none ps t left n lc []) (λ new_table,
       join_right ty none ps u right n rc new_table)) = Ok r ∧
      names (contents r) = lc ++ ns ∧ NoDup (lc ++ ns) ∧ fresh_names lc rc ns ∧
      rows none (contents r) = map (join_row none (contents t) (contents u) lc rc) pairs.
  Proof.
    intros Ht Hu Hlc Hinl Hinr Hnd Hp Hsl Hsr.
    destruct (join_columns t u n m lc rc pairs) as (r & ns & Hr & Hns & Hf & Hcon); try done.
    exists r, ns. split; [done|]. pose proof (fresh_names_length _ _ _ Hf) as Hlns.
    split; [|split; [done|split; [done|]]].
    - rewrite Hcon. apply zip_names. rewrite !app_length, !map_length. lia.
    - rewrite Hcon, rows_of_columns.
      + apply map_ext. intros p. rewrite map_app, !map_map. done.
      + rewrite !app_length, !map_length. lia.
      + by destruct lc.
  Qed.
End joins.
