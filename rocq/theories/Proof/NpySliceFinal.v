(** C99: slices and items of pages. *)
From Coq Require Import String.
From Verif.Model Require Import NpySlice.
From Verif.Proof Require Import DictLemmas PicklePageProofs NpyProofs NpySliceProofs.
Local Open Scope Z_scope.

Lemma map_cells {B} (g : B → cell) (f : cell → B) k cs : (∀ c, kind_of c = k → g (f c) = c) →
  Forall (λ c, kind_of c = k) cs → map g (map f cs) = cs.
Proof.
  intros H. induction 1 as [|c cs Hc _ IH]; [done|]. cbn [map]. by rewrite H, IH.
Qed.

(** what is known of a new page *)
Definition page_of (widen : Z → Z) (cs : list cell) (p : page) : Prop :=
  elements widen p = cs ∧ page_len p = zlen cs ∧ (∀ k, dget_or (page_types p) k 0 = kind_count cs k).

Lemma page_of_types widen cs k p : Forall (λ c, kind_of c = k) cs → elements widen p = cs →
  page_len p = zlen cs → page_types p = [(k, page_len p)] → page_of widen cs p.
Proof.
  intros H1 H2 H3 H4. split; [done|]. split; [done|]. intros k'.
  rewrite H4, types_single, (kind_count_all cs k H1), H3. done.
Qed.

Lemma page_of_objects widen cs : page_of widen cs (PObject [zlen cs] cs (count_kinds cs)).
Proof.
  split; [done|]. split; [cbn [page_len calcShapeElements fold_left]; lia|]. intros k. cbn [page_types].
  rewrite (cdict_get_or _ _ _ (count_kinds_dict cs)). by rewrite kind_count_cnt.
Qed.

Lemma not_array cs k n : count_kinds cs = [(k, n)] → k = KNone ∨ k = KTime → ¬ as_array cs.
Proof.
  intros E Hk (Hne & k' & H1 & H2 & H). destruct (count_kinds_one cs k' Hne H) as [n' E'].
  rewrite E in E'. injection E' as <- _. naive_solver.
Qed.

Lemma objects_slice widen checks buf idx cs :
  picks buf idx cs → Forall (array_text checks) cs →
  ∃ p', object_slice checks buf idx = Ok p' ∧ page_of widen cs p' ∧ sized p'
    ∧ (as_array cs → Forall array_cell cs → zlen cs < 2 ^ 63 → page_ok p')
    ∧ (¬ as_array cs → p' = PObject [zlen cs] cs (count_kinds cs))
    ∧ counted p'.
Proof.
  intros Hp Ht. unfold object_slice. rewrite (collect_picks buf idx cs Hp). cbn [res_bind].
  assert (counted (PObject [zlen cs] cs (count_kinds cs))) as Hcounted.
  { cbn [counted calcShapeElements fold_left]. lia. }
  destruct (count_kinds cs) as [|[k n] [|kn l]] eqn:E.
  - rewrite <- E in *. eexists. split; [done|]. split; [apply page_of_objects|]. split; [done|]. split; [|done].
    intros (Hne & k & _ & _ & H). destruct (count_kinds_one cs k Hne H). congruence.
  - destruct (one_kind cs k n E) as [Hne Hk].
    assert (∀ k', k = k' → k' ≠ KNone → k' ≠ KTime → as_array cs) as Has.
    { intros k' <- H1 H2. split; [done|]. by exists k. }
    destruct k.
    + rewrite <- E. eexists. split; [done|]. split; [apply page_of_objects|]. split; [done|].
      split; [|done]. intros H. exfalso. by apply (not_array cs KNone n E); [left|].
    + eexists. split; [done|]. split; [|split; [done|split; [|split; [|done]]]].
      * apply (page_of_types widen cs KBool); try done; [|by cbn; rewrite map_length].
        cbn [elements]. apply (map_cells CBool _ KBool); [|done]. by intros [].
      * intros _ Hc Hl. cbn. by rewrite map_length.
      * intros H. exfalso. apply H. by apply (Has KBool).
    + eexists. split; [done|]. split; [|split; [done|split; [|split; [|done]]]].
      * apply (page_of_types widen cs KInt); try done; [|by cbn; rewrite map_length].
        cbn [elements]. apply (map_cells CInt _ KInt); [|done]. by intros [].
      * intros _ Hc Hl. split; [set_solver|]. split; [|by rewrite map_length].
        apply list.Forall_fmap. clear -Hk Hc. induction Hk as [|c cs Hkc _ IH]; [constructor|].
        apply list.Forall_cons in Hc as [Hc Hcs]. constructor; [|by apply IH]. destruct c; try discriminate Hkc. exact Hc.
      * intros H. exfalso. apply H. by apply (Has KInt).
    + eexists. split; [done|]. split; [|split; [done|split; [|split; [|done]]]].
      * apply (page_of_types widen cs KFloat); try done; [|by cbn; rewrite map_length].
        cbn [elements]. apply (map_cells (λ b, CFloat (if (8 =? 4)%nat then widen b else b)) _ KFloat); [|done]. by intros [].
      * intros _ Hc Hl. split; [set_solver|]. split; [|by rewrite map_length].
        apply list.Forall_fmap. clear -Hk Hc. induction Hk as [|c cs Hkc _ IH]; [constructor|].
        apply list.Forall_cons in Hc as [Hc Hcs]. constructor; [|by apply IH]. destruct c; try discriminate Hkc. exact Hc.
      * intros H. exfalso. apply H. by apply (Has KFloat).
    + assert (∃ css, Forall2 kept (map (λ v, match v with CStr t => t | _ => [] end) cs) css
        ∧ cs = map (λ c, CStr (utf8 c)) css) as (css & Hkept & Ecs).
      { clear -Hk Ht. induction Hk as [|c cs Hkc _ IH]; [exists []; split; [constructor|done]|].
        apply list.Forall_cons in Ht as [Hc Ht]. destruct (IH Ht) as (css & H1 & H2).
        destruct c; try discriminate Hkc. destruct Hc as [(r & -> & H3 & H4 & H5) _].
        exists (r :: css). cbn [map]. split; [constructor; [|done]|by rewrite <- H2]. by split. }
      destruct (newUnicode_ok checks (map (λ v, match v with CStr t => t | _ => [] end) cs) css Hkept) as (k & Hnew & H1 & H2 & H3).
      { intros ->. apply list.Forall_fmap. clear -Ht Hk. induction Hk as [|c cs Hkc _ IH]; [constructor|].
        apply list.Forall_cons in Ht as [Hc Ht]. constructor; [|by apply IH].
        destruct c; try discriminate Hkc. by apply Hc. }
      assert (Forall (λ c, Forall code_point c ∧ head c ≠ Some 0 ∧ stdpp.list.last c ≠ Some 0) css) as Hcp.
      { clear -Hkept. apply list.Forall_forall. intros c Hc.
        destruct (elem_of_list_lookup_1 _ _ Hc) as [i Hi].
        destruct (Forall2_lookup_r _ _ _ _ _ Hkept Hi) as (t & _ & _ & ? & ? & ?). done. }
      eexists. split; [exact Hnew|]. split; [|split; [|split; [|split; [|done]]]].
      * apply (page_of_types widen cs KStr); try done; [|by cbn; rewrite map_length].
        cbn [elements]. rewrite kept_texts; [|done|lia|].
        -- rewrite map_map. by rewrite <- Ecs.
        -- eapply list.Forall_impl; [exact Hcp|]. naive_solver.
      * split; [lia|]. split; [lia|]. rewrite (concat_length_eq _ k).
        -- rewrite !map_length, Ecs, map_length. f_equal. lia.
        -- apply list.Forall_fmap. eapply list.Forall_impl; [exact H2|]. intros c Hc. cbv beta in Hc.
           unfold compose. rewrite app_length, repeat_length. lia.
      * intros _ Hc Hl. split.
        { destruct H3 as [->|(c & Hin & ->)]; [done|]. split; [lia|].
          assert (CStr (utf8 c) ∈ cs) as Hcs by (rewrite Ecs; by apply (elem_of_list_fmap_1 (λ c, CStr (utf8 c)))).
          pose proof (proj1 (list.Forall_forall _ _) Hc _ Hcs) as [Hlen _].
          pose proof (utf8_length c). lia. }
        split; [by rewrite map_length|]. exists css. rewrite map_length, Ecs, map_length.
        split; [done|]. split; [done|]. apply list.Forall_forall. intros c Hin.
        destruct (proj1 (list.Forall_forall _ _) Hcp _ Hin) as (? & ? & ?).
        pose proof (proj1 (list.Forall_forall _ _) H2 _ Hin). done.
      * intros H. exfalso. apply H. by apply (Has KStr).
    + eexists. split; [done|]. split; [|split; [done|split; [|split; [|done]]]].
      * apply (page_of_types widen cs KDate); try done; [|by cbn; rewrite map_length].
        cbn [elements]. apply (map_cells CDate _ KDate); [|done]. by intros [].
      * intros _ Hc Hl. split; [|by rewrite map_length].
        apply list.Forall_fmap. clear -Hk Hc. induction Hk as [|c cs Hkc _ IH]; [constructor|].
        apply list.Forall_cons in Hc as [Hc Hcs]. constructor; [|by apply IH]. destruct c; try discriminate Hkc. exact Hc.
      * intros H. exfalso. apply H. by apply (Has KDate).
    + rewrite <- E. eexists. split; [done|]. split; [apply page_of_objects|]. split; [done|].
      split; [|done]. intros H. exfalso. by apply (not_array cs KTime n E); [right|].
    + eexists. split; [done|]. split; [|split; [done|split; [|split; [|done]]]].
      * apply (page_of_types widen cs KDateTime); try done; [|by cbn; rewrite map_length].
        cbn [elements]. apply (map_cells (λ dt, CDateTime dt.1 (dt.2 / 1000)) _ KDateTime); [|done].
        intros [] Hc; try discriminate Hc. cbn. by rewrite Z.div_mul by done.
      * intros _ Hc Hl. split; [|by rewrite map_length].
        apply list.Forall_fmap. clear -Hk Hc. induction Hk as [|c cs Hkc _ IH]; [constructor|].
        apply list.Forall_cons in Hc as [Hc Hcs]. constructor; [|by apply IH]. destruct c; try discriminate Hkc.
        destruct Hc as [H1 H2]. split; [done|]. cbn. split; [|by rewrite Z.mod_mul].
        unfold us_per_day in H2. unfold ns_per_day. lia.
      * intros H. exfalso. apply H. by apply (Has KDateTime).
  - rewrite <- E in *. eexists. split; [done|]. split; [apply page_of_objects|]. split; [done|]. split; [|done].
    intros (Hne & k' & _ & _ & H). destruct (count_kinds_one cs k' Hne H). congruence.
Qed.

(** * All pages *)
Lemma res_map_ok {A B} (f : A → B) (r : res A) x : r = Ok x → res_map f r = Ok (f x).
Proof. by intros ->. Qed.

Lemma picks_kinds widen k (p : page) cs :
  Forall (λ c, kind_of c = k) (elements widen p) → ∀ idx, picks (elements widen p) idx cs →
  Forall (λ c, kind_of c = k) cs.
Proof. intros H idx Hp. by eapply picks_Forall. Qed.

Lemma Forall_mapped {A B} (P : B → Prop) (f : A → B) l : (∀ x, P (f x)) → Forall P (map f l).
Proof. intros H. apply list.Forall_fmap, list.Forall_true. exact H. Qed.

Lemma slice_ok widen checks p idx cs : sized p → picks (elements widen p) idx cs →
  (object_page p → Forall (array_text checks) cs) →
  ∃ p', page_slice checks p idx = Ok p' ∧ page_of widen cs p' ∧ sized p' ∧ counted p'.
Proof.
  intros Hs Hp Ht. destruct p as [buf|k buf|k buf|n buf k|buf|buf|sh buf dtypes]; cbn [elements page_slice] in *.
  - assert (Forall (λ c, kind_of c = KBool) cs) by (eapply picks_Forall, Hp; by apply Forall_mapped).
    apply picks_map in Hp as (l & Hl & ->). eexists. split; [by apply res_map_ok, collect_picks|].
    split; [|done]. apply (page_of_types widen _ KBool); try done. cbn. by rewrite map_length.
  - assert (Forall (λ c, kind_of c = KInt) cs) by (eapply picks_Forall, Hp; by apply Forall_mapped).
    apply picks_map in Hp as (l & Hl & ->). eexists. split; [by apply res_map_ok, collect_picks|].
    split; [|done]. apply (page_of_types widen _ KInt); try done. cbn. by rewrite map_length.
  - assert (Forall (λ c, kind_of c = KFloat) cs) by (eapply picks_Forall, Hp; by apply Forall_mapped).
    apply picks_map in Hp as (l & Hl & ->). eexists. split; [by apply res_map_ok, collect_picks|].
    split; [|done]. apply (page_of_types widen _ KFloat); try done. cbn. by rewrite map_length.
  - assert (Forall (λ c, kind_of c = KStr) cs) by (eapply picks_Forall, Hp; by apply Forall_mapped).
    destruct (sized_texts n buf k Hs) as (els & -> & Hn & Hall & Etx). rewrite Etx, map_map in Hp.
    apply picks_map in Hp as (l & Hl & ->). destruct Hs as (Hk & _).
    assert (Forall (λ e, List.length e = k) l) as Hall' by (by eapply picks_Forall).
    exists (PUnicode (zlen idx) (concat l) k). split; [|split; [|split; [|done]]].
    + unfold unicode_slice. rewrite (collect_ok _ idx l); [done|].
      eapply Forall2_impl; [exact Hl|]. intros j e. by apply chunk_at.
    + apply (page_of_types widen _ KStr); try done.
      * cbn [elements]. rewrite texts_ok; [|done|done|rewrite (concat_length_eq l k) by done; nia].
        by rewrite map_map.
      * cbn [page_len]. rewrite map_length. symmetry. by eapply picks_length.
    + split; [done|]. split; [lia|]. rewrite (concat_length_eq l k) by done.
      apply picks_length in Hl. f_equal. lia.
  - assert (Forall (λ c, kind_of c = KDate) cs) by (eapply picks_Forall, Hp; by apply Forall_mapped).
    apply picks_map in Hp as (l & Hl & ->). eexists. split; [by apply res_map_ok, collect_picks|].
    split; [|done]. apply (page_of_types widen _ KDate); try done. cbn. by rewrite map_length.
  - assert (Forall (λ c, kind_of c = KDateTime) cs) by (eapply picks_Forall, Hp; by apply Forall_mapped).
    apply picks_map in Hp as (l & Hl & ->). eexists. split; [by apply res_map_ok, collect_picks|].
    split; [|done]. apply (page_of_types widen _ KDateTime); try done. cbn. by rewrite map_length.
  - destruct (objects_slice widen checks buf idx cs Hp (Ht I)) as (p' & ? & ? & ? & _ & _ & ?). by exists p'.
Qed.

Lemma slice_range widen checks p idx i : sized p → i ∈ idx → ¬ (0 <= i < zlen (elements widen p)) →
  page_slice checks p idx = Err IndexError.
Proof.
  intros Hs Hi Hr. destruct p as [buf|k buf|k buf|n buf k|buf|buf|sh buf dtypes]; cbn [elements page_slice] in *;
    try (rewrite map_length in Hr; rewrite (collect_err _ idx i);
         [done|apply at_index_only|done|eexists; by apply at_index_err]).
  - destruct (sized_texts n buf k Hs) as (els & -> & Hn & Hall & Etx). rewrite Etx, !map_length in Hr.
    unfold unicode_slice. rewrite (collect_err _ idx i); [done|apply chunk_only|done|].
    eexists. apply chunk_err; [apply Hs|done|done].
  - unfold object_slice. rewrite (collect_err _ idx i); [done|apply at_index_only|done|]. eexists. by apply at_index_err.
Qed.

Lemma page_ok_sized p : page_ok p → sized p.
Proof.
  destruct p as [buf|k buf|k buf|n buf k|buf|buf|sh buf dtypes]; try done.
  intros (Hk & Hn & els & Hl & -> & Hall). split; [lia|]. split; [lia|].
  rewrite (concat_length_eq _ k).
  - rewrite map_length. f_equal. lia.
  - apply list.Forall_fmap. eapply list.Forall_impl; [exact Hall|]. intros e (_ & He & _).
    unfold compose. rewrite app_length, repeat_length. lia.
Qed.

Lemma plain_text checks c : plain_cell c → (checks = true → ¬ empty_text c) → array_text checks c.
Proof.
  destruct c; try done. intros (_ & cs & H) He. split; [by exists cs|].
  intros ->. intros ->. by apply He.
Qed.

Lemma slice_page_ok widen checks p idx cs : page_ok p → picks (elements widen p) idx cs → zlen idx < 2 ^ 31 →
  (object_page p → Forall plain_cell cs) →
  (object_page p → checks = true → Forall (λ c, ¬ empty_text c) cs) →
  ∃ p', page_slice checks p idx = Ok p' ∧ page_of widen cs p' ∧ page_ok p'
    ∧ (cs ≠ [] → ∀ n buf k, p' = PUnicode n buf k → n ≠ 0).
Proof.
  intros Hok Hp Hlen Hpl Hne.
  assert (object_page p → Forall (array_text checks) cs) as Ht.
  { intros Ho. specialize (Hpl Ho). specialize (Hne Ho). clear -Hpl Hne.
    apply list.Forall_forall. intros c Hc. apply plain_text.
    - by apply (proj1 (list.Forall_forall _ _) Hpl).
    - intros E. by apply (proj1 (list.Forall_forall _ _) (Hne E)). }
  destruct (slice_ok widen checks p idx cs (page_ok_sized p Hok) Hp Ht) as (p' & Hsl & Hpo & _).
  exists p'. split; [done|]. split; [done|]. split.
  2:{ intros Hcs n buf k ->. destruct Hpo as (_ & Hl & _). cbn [page_len] in Hl. destruct cs; [done|]. cbn in Hl. lia. }
  assert (zlen cs < 2 ^ 31) as Hcl by (rewrite (picks_length _ _ _ Hp); done).
  assert (∀ z, z < 2 ^ 31 → z < 2 ^ 63) as Hb by lia.
  destruct p as [buf|k buf|k buf|n buf k|buf|buf|sh buf dtypes]; cbn [elements page_slice] in *.
  - apply picks_map in Hp as (l & Hl & ->). rewrite (collect_picks _ _ _ Hl) in Hsl. injection Hsl as <-.
    cbn. rewrite map_length in Hcl. by apply Hb.
  - apply picks_map in Hp as (l & Hl & ->). rewrite (collect_picks _ _ _ Hl) in Hsl. injection Hsl as <-.
    rewrite map_length in Hcl. destruct Hok as (? & ? & _). split; [done|]. split; [|by apply Hb]. by eapply picks_Forall.
  - apply picks_map in Hp as (l & Hl & ->). rewrite (collect_picks _ _ _ Hl) in Hsl. injection Hsl as <-.
    rewrite map_length in Hcl. destruct Hok as (? & ? & _). split; [done|]. split; [|by apply Hb]. by eapply picks_Forall.
  - destruct Hok as (Hk & Hn & els & Hl & -> & Hall).
    assert (Forall (λ e, List.length e = k) (map (λ cs, cs ++ repeat 0 (k - List.length cs)) els)) as Hlk.
    { apply list.Forall_fmap. eapply list.Forall_impl; [exact Hall|]. intros e (_ & He & _).
      unfold compose. rewrite app_length, repeat_length. lia. }
    rewrite texts_ok, !map_map in Hp; [|lia|done|rewrite (concat_length_eq _ k) by done; nia].
    apply picks_map in Hp as (l & Hl' & ->).
    unfold unicode_slice in Hsl.
    rewrite (collect_ok _ idx (map (λ cs, cs ++ repeat 0 (k - List.length cs)) l)) in Hsl.
    2:{ apply (picks_map_r (λ cs, cs ++ repeat 0 (k - List.length cs))) in Hl'.
        eapply Forall2_impl; [exact Hl'|]. intros j e. apply chunk_at; [lia|done]. }
    injection Hsl as <-. split; [done|]. split; [lia|]. exists l.
    split; [by eapply picks_length|]. split; [done|]. by eapply picks_Forall.
  - apply picks_map in Hp as (l & Hl & ->). rewrite (collect_picks _ _ _ Hl) in Hsl. injection Hsl as <-.
    rewrite map_length in Hcl. destruct Hok as (? & _). split; [|by apply Hb]. by eapply picks_Forall.
  - apply picks_map in Hp as (l & Hl & ->). rewrite (collect_picks _ _ _ Hl) in Hsl. injection Hsl as <-.
    rewrite map_length in Hcl. destruct Hok as (? & _). split; [|by apply Hb]. by eapply picks_Forall.
  - destruct (objects_slice widen checks buf idx cs Hp (Ht I)) as (p2 & Hsl2 & _ & _ & Ha & Hna & _).
    rewrite Hsl in Hsl2. injection Hsl2 as <-.
    destruct Hok as (_ & _ & _ & Hcells).
    assert (as_array cs ∨ ¬ as_array cs) as [Has|Hno].
    { destruct cs as [|c cs]; [right; by intros [? _]|].
      destruct (decide (kind_of c ≠ KNone ∧ kind_of c ≠ KTime ∧ Forall (λ c', kind_of c' = kind_of c) (c :: cs))) as [(?&?&?)|Hn].
      - left. split; [done|]. by exists (kind_of c).
      - right. intros (_ & k & H1 & H2 & H3). apply Hn.
        assert (kind_of c = k) as -> by (by apply list.Forall_cons in H3 as [? _]). done. }
    + apply Ha; [done| |by apply Hb]. specialize (Hpl I). destruct Has as (_ & k & H1 & H2 & H3).
      clear -Hpl H1 H2 H3. induction H3 as [|c cs Hc _ IH]; [constructor|].
      apply list.Forall_cons in Hpl as [Hpc Hpl]. constructor; [|by apply IH]. by destruct c.
    + rewrite (Hna Hno). split; [done|]. destruct (count_kinds_dict cs) as [Hnd _]. split; [done|].
      split; [intros k; rewrite (cdict_get_or _ _ _ (count_kinds_dict cs)); by rewrite kind_count_cnt|].
      right. split; [done|]. split; [|done].
      destruct Hcells as [((Hne1 & k & H1 & H2 & H3) & _ & _)|(_ & Hc & _)]; [|by eapply picks_Forall].
      destruct (decide (cs = [])) as [->|Hcs]; [constructor|]. exfalso. apply Hno.
      split; [done|]. exists k. split; [done|]. split; [done|]. by eapply picks_Forall.
Qed.

Lemma slice_saved widen checks scalar p idx cs : page_ok p → picks (elements widen p) idx cs → zlen idx < 2 ^ 31 →
  idx ≠ [] →
  (object_page p → Forall plain_cell cs) →
  (object_page p → checks = true → Forall (λ c, ¬ empty_text c) cs) → Forall whole_seconds cs →
  ∃ p' p'', page_slice checks p idx = Ok p' ∧ readNumpy checks scalar (save p') = Ok p'' ∧ elements widen p'' = cs.
Proof.
  intros Hok Hp Hlen Hidx Hpl Hne Hw.
  destruct (slice_page_ok widen checks p idx cs Hok Hp Hlen Hpl Hne) as (p' & Hsl & (He & _) & Hok' & Hn).
  rewrite <- He in Hw. destruct (save_read checks scalar widen p' Hok' Hw) as (p'' & ts & Hr & He' & _).
  { intros _. apply Hn. intros ->. by inversion Hp; subst. }
  exists p', p''. split; [done|]. split; [done|]. congruence.
Qed.

(** * Items *)
Lemma item_ok widen p i c : sized p → at_position (elements widen p) i c → (object_page p ∨ without_nul c) →
  getItemAsObject widen p i = Ok c.
Proof.
  intros Hs Hi Hn. destruct p as [buf|k buf|k buf|n buf k|buf|buf|sh buf dtypes]; cbn [elements getItemAsObject] in *;
    try (destruct Hi as [H0 Hi]; change (map ?f buf) with (f <$> buf) in Hi; rewrite list_lookup_fmap in Hi;
         destruct (buf !! Z.to_nat i) as [x|] eqn:E; [|done]; injection Hi as <-;
         rewrite (proj1 (at_index_ok buf i x)) by done; done).
  - destruct (sized_texts n buf k Hs) as (els & -> & Hl & Hall & Etx). rewrite Etx, map_map in Hi.
    destruct Hi as [H0 Hi]. change (map ?f els) with (f <$> els) in Hi. rewrite list_lookup_fmap in Hi.
    destruct (els !! Z.to_nat i) as [e|] eqn:E; [|done]. injection Hi as <-.
    destruct Hn as [[]|Hn]. cbn [without_nul] in Hn.
    unfold unicode_item. rewrite (proj2 (Z.ltb_ge i 0)) by lia. cbn [andb].
    replace (Z.to_nat (i * Z.of_nat k)) with (Z.to_nat i * k)%nat by nia.
    rewrite drop_concat by done. rewrite (drop_S els e (Z.to_nat i)) by done. cbn [concat].
    assert (List.length e = k) as <- by exact (proj1 (list.Forall_lookup _ _) Hall _ _ E).
    rewrite runes_before_ok. cbn [res_map]. by rewrite before_nul_text.
  - by apply at_index_ok.
Qed.

Lemma item_range widen p i : sized p → ¬ (0 <= i < zlen (elements widen p)) →
  getItemAsObject widen p i = Err IndexError.
Proof.
  intros Hs Hr. destruct p as [buf|k buf|k buf|n buf k|buf|buf|sh buf dtypes]; cbn [elements getItemAsObject] in *;
    try (rewrite map_length in Hr; by rewrite at_index_err).
  - destruct (sized_texts n buf k Hs) as (els & -> & Hl & Hall & Etx). rewrite Etx, !map_length in Hr.
    destruct Hs as (Hk & _). unfold unicode_item. destruct (Z.ltb_spec i 0) as [|H0].
    + destruct k; [lia|done].
    + cbn [andb]. replace (Z.to_nat (i * Z.of_nat k)) with (Z.to_nat i * k)%nat by nia.
      rewrite drop_concat by done. rewrite drop_ge by lia. by destruct k; [lia|].
  - by apply at_index_err.
Qed.
