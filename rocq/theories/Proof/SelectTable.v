(** [column_select] as a whole. *)
From Verif.Model Require Import ColumnSelect.
From Verif.Proof Require Import DictLemmas NamesProofs SelectMask SelectPage SelectLemmas.

Lemma dget_fmap {B C : Type} (f : B → C) (t : list (string * B)) k :
  dget (map (λ c, (c.1, f c.2)) t) k = f <$> dget t k.
Proof. induction t as [|[n b] t IH]; [done|]. cbn. destruct (decide (k = n)); done. Qed.
Lemma dget_in {B : Type} (t : list (string * B)) k b : dget t k = Some b → (k, b) ∈ t.
Proof.
  induction t as [|[n b'] t IH]; [done|]. cbn. destruct (decide (k = n)) as [->|]; [intros [= ->]; left|].
  intros H. right. by apply IH.
Qed.

Lemma finalize_spec {A} (P : nat → Prop) `{∀ x, Decision (P x)} (data : list A) L :
  length data = L → finalize (filter P (seq 0 L)) data = Ok (omap (λ i, data !! i) (filter P (seq 0 L))).
Proof.
  intros Hl. unfold finalize. destruct (decide (length data = length (filter P (seq 0 L)))) as [He|He].
  - rewrite filter_seq_full by lia. rewrite <- Hl, omap_lookup_all. done.
  - destruct (mapM (λ i, data !! i) (filter P (seq 0 L))) as [l|] eqn:E.
    + f_equal. apply mapM_Some in E. clear He Hl. revert E. generalize (filter P (seq 0 L)). intros is_ E.
      induction E as [|i x is_ l Hi _ IH]; [done|]. cbn. rewrite Hi. f_equal. done.
    + exfalso. apply eq_None_not_Some in E. apply E. apply mapM_is_Some_2. apply list.Forall_forall.
      intros i Hi. apply elem_of_list_filter in Hi as [_ Hi]. apply elem_of_seq in Hi. apply lookup_lt_is_Some_2. lia.
Qed.
Lemma finalize_slice_spec {A} (P : nat → Prop) `{∀ x, Decision (P x)} (cols : list (string * list A)) L :
  (∀ c, c ∈ cols → length c.2 = L) →
  finalize_slice (filter P (seq 0 L)) cols = Ok (map (λ c, (c.1, omap (λ i, c.2 !! i) (filter P (seq 0 L)))) cols).
Proof.
  induction cols as [|[n data] cols IH]; intros Hc; [done|]. cbn [finalize_slice].
  rewrite finalize_spec by (apply (Hc (n, data)); left). cbn [res_bind].
  rewrite IH by (intros c Hin; apply Hc; by right). done.
Qed.

Section table.
  Context {A K : Type} `{EqDecision A, EqDecision K} (kind : A → K) (knone kstr : K) (none estr : A).
  Context (conv : K → A → res A) (no_text no_none : desired (K := K) → A) (no_value : desired (K := K) → A → A).
  Context (Hkn : ∀ v, kind v = knone ↔ v = none) (Hks : kind estr = kstr) (Hns : knone ≠ kstr).
  Context (Hid : ∀ v, v ≠ none → conv (kind v) v = Ok v).
  Context (ps step : nat) (Hps : (0 < ps)%nat) (Hstep : (0 < step)%nat).
  Notation page := (page (A := A) (K := K)).
  Notation desired := (desired (K := K)).
  Notation W := (wanted none estr kstr (λ k v, ok_of (conv k v)) wish_of no_text no_none no_value).
  Notation cw vs := (cell_wanted none estr kstr (λ k v, ok_of (conv k v)) wish_of no_text no_none no_value vs).
  Notation rr ds vs := (row_reason none estr kstr (λ k v, ok_of (conv k v)) wish_of no_text no_none no_value ds vs).
  Notation pv ds vs := (passed_values none estr kstr (λ k v, ok_of (conv k v)) wish_of no_text no_none no_value ds vs).
  Notation pa ds vs := (passing none estr kstr (λ k v, ok_of (conv k v)) wish_of no_text no_none no_value ds vs).
  Notation fa ds vs := (failing none estr kstr (λ k v, ok_of (conv k v)) wish_of no_text no_none no_value ds vs).
  Notation re ds vs := (reasons none estr kstr (λ k v, ok_of (conv k v)) wish_of no_text no_none no_value ds vs).
  Notation fv ds vs := (failed_values none estr kstr (λ k v, ok_of (conv k v)) wish_of no_text no_none no_value ds vs).

  Lemma slice_convert_spec (pages : list (string * page)) correct (Pg : desired → page) L reject ds :
    (∀ c, c ∈ pages → ColumnSelect.page_ok kind knone c.2 ∧ length (pg_vals c.2) = L) → (L ≤ ps)%nat →
    Forall (good knone kstr none estr conv no_text no_none no_value pages correct Pg) ds →
    NoDup (d_name <$> ds) → (L = 0%nat ∨ existsb (active kstr correct Pg) ds = true) →
    slice_convert kind knone kstr none estr conv no_text no_none no_value ps step pages reject ds correct =
      let vs := λ d, pg_vals (Pg d) in
      Ok (if decide (pa ds vs L = []) then [] else map (λ d, (d_name d, pv ds vs L d)) ds,
          if decide (fa ds vs L = []) then [] else map (λ c, (c.1, fv ds vs L (pg_vals c.2))) pages ++ [(reject, re ds vs L)]).
  Proof using Hid Hkn Hks Hns Hps Hstep.
    intros Hpages HL Hgood Hnd Hact. cbv zeta. unfold slice_convert.
    destruct (convert_fold kind knone kstr none estr conv no_text no_none no_value Hkn Hks Hns Hid pages correct Pg L ps Hpages HL
      ds [] _ (inv_nil kstr none estr conv no_text no_none no_value correct Pg L ps HL) Hgood Hnd) as (s & -> & Hinv).
    cbn [res_bind]. destruct s as [[ms rs] cast]. destruct Hinv as (Hm & Hr & Hin & Hout & Hk & Hcast).
    rewrite app_nil_l in Hin, Hk, Hcast.
    set (vs := λ d, pg_vals (Pg d)) in *.
    assert (Hused : ∀ j, (j < L)%nat → ms !! j = Some (if rr ds vs j then INVALID else VALID)).
    { intros j Hj. specialize (Hin j Hj). destruct (rr ds vs j); [tauto|].
      destruct Hact as [|Ha]; [lia|]. rewrite Ha in Hin. done. }
    assert (Hms : ms = take L ms ++ replicate (ps - L) UNUSED).
    { rewrite <- (take_drop L ms) at 1. f_equal. apply list_eq. intros j.
      destruct (decide (j < ps - L)%nat).
      - rewrite lookup_drop, Hout by lia. symmetry. apply lookup_replicate. split; [done|lia].
      - rewrite lookup_ge_None_2, lookup_ge_None_2; [done|rewrite replicate_length; lia|rewrite drop_length; lia]. }
    assert (Htl : length (take L ms) = L) by (rewrite take_length; lia).
    assert (Hs : unused_mask_search step ms = Ok L).
    { rewrite Hms. rewrite unused_mask_search_spec; [by rewrite Htl|done| |lia].
      apply list.Forall_lookup. intros j m Hj. pose proof (lookup_lt_Some _ _ _ Hj) as Hlt. rewrite Htl in Hlt.
      rewrite lookup_take, Hused in Hj by done. inversion Hj. destruct (rr ds vs j); done. }
    rewrite Hs. cbn [res_bind]. rewrite Htl.
    assert (Hval : filter (λ i, take L ms !! i ≠ Some INVALID) (seq 0 L) = pa ds vs L).
    { apply filter_ext_elem. intros i Hi. apply elem_of_seq in Hi. rewrite lookup_take, Hused by lia.
      destruct (rr ds vs i); naive_solver. }
    assert (Hinv : filter (λ i, take L ms !! i = Some INVALID) (seq 0 L) = fa ds vs L).
    { apply filter_ext_elem. intros i Hi. apply elem_of_seq in Hi. rewrite lookup_take, Hused by lia.
      destruct (rr ds vs i); naive_solver. }
    rewrite Hval, Hinv.
    assert (Hre : omap (λ i, rs !! i) (fa ds vs L) = re ds vs L).
    { apply omap_ext_in. intros i [Hi Hn]%failing_lt. specialize (Hin i Hi). destruct (rr ds vs i); [tauto|done]. }
    rewrite Hre.
    assert (Hpass : (if decide (pa ds vs L = []) then Ok [] else finalize_slice (pa ds vs L) cast) =
      Ok (if decide (pa ds vs L = []) then [] else map (λ d, (d_name d, pv ds vs L d)) ds)).
    { destruct (decide (pa ds vs L = [])); [done|].
      assert (Hcnd : NoDup cast.*1) by (by rewrite Hk).
      unfold passing. rewrite finalize_slice_spec.
      - f_equal. change (map ?f cast) with (f <$> cast). rewrite (dict_map cast Hcnd). rewrite Hk.
        rewrite <- !list_fmap_compose. apply list_fmap_ext. intros i d Hd. unfold compose. cbn [fst snd].
        f_equal. unfold passed_values. destruct (Hcast d ltac:(by eapply elem_of_list_lookup_2)) as (l & Hg & Hl & Hx).
        unfold dget_or. rewrite Hg. cbn [default]. unfold passing. apply omap_ext_in. intros j Hj.
        apply elem_of_list_filter in Hj as [Hj1 Hj2]. apply elem_of_seq in Hj2.
        destruct (Hx j ltac:(lia) Hj1) as (x & Hcw & Hlj). unfold id. rewrite Hlj. subst vs. rewrite Hcw. done.
      - intros [k l] Hkl. cbn [snd]. apply dget_Some in Hkl; [|done].
        assert (Hin' : k ∈ d_name <$> ds).
        { rewrite <- Hk. apply elem_of_list_fmap. exists (k, l). split; [done|]. by apply dget_Some in Hkl. }
        apply elem_of_list_fmap in Hin' as (d & -> & Hd). destruct (Hcast d Hd) as (l' & Hg & Hl & _). congruence. }
    rewrite Hpass. cbn [res_bind].
    assert (Hfail : (if decide (fa ds vs L = []) then Ok [] else finalize_slice (fa ds vs L) (map (λ c : string * page, (c.1, pg_vals c.2)) pages)) =
      Ok (if decide (fa ds vs L = []) then [] else map (λ c, (c.1, fv ds vs L (pg_vals c.2))) pages)).
    { destruct (decide (fa ds vs L = [])); [done|]. unfold failing. rewrite finalize_slice_spec.
      - f_equal. rewrite map_map. done.
      - intros c Hc. apply elem_of_list_fmap in Hc as (c' & -> & Hc'). cbn [snd]. apply Hpages. done. }
    rewrite Hfail. cbn [res_bind]. f_equal. f_equal.
    destruct (decide (fa ds vs L = [])) as [Hnil|Hne].
    - rewrite decide_True; [done|]. unfold reasons. rewrite Hnil. done.
    - rewrite decide_False; [done|]. unfold reasons. intros Hnil.
      destruct (fa ds vs L) as [|i l] eqn:Ef; [done|].
      assert (Hi : i ∈ fa ds vs L) by (rewrite Ef; left). apply failing_lt in Hi as [_ Hi].
      cbn in Hnil. destruct (rr ds vs i); done.
  Qed.

  (** ** all pages *)
  Context (t : table (A := A) (K := K)) (ds : list desired) (lens : list nat).
  Context (Hnd : NoDup t.*1) (Hne : t ≠ []) (Hok : ∀ c, c ∈ t → Forall (ColumnSelect.page_ok kind knone) c.2 ∧ map (length ∘ pg_vals) c.2 = lens).
  Context (Hfit : Forall (λ L, L ≤ ps)%nat lens) (Hdn : NoDup (d_name <$> ds)).
  Notation col := (col t).
  Notation vals := (vals t).
  Notation needs d := (needs_to_iterate kind knone kstr d (col d)).
  Context (Hds : ∀ d, d ∈ ds → d_orig d ∈ t.*1 ∧ (needs d = true → d_type d ≠ knone) ∧ (∀ v e, v ∈ vals d → conv (d_type d) v = Err e → e = ValueError)).
  (** a page that no wanted column has to be converted on is not one of only columns already of their types *)
  Context (Hact : ∀ i L, lens !! i = Some L → L = 0%nat ∨ ∃ d, d ∈ ds ∧ (needs d = false ∨ as_is kstr d (page_at (col d) i) = false)).

  Definition vals_to (k : nat) (d : desired) : list A := concat (map pg_vals (take k (col d))).
  Definition rows_to (k : nat) : nat := sum_list (take k lens).
  Definition state (reject : string) (k : nat) : list (string * list A) * list (string * list A) :=
    (map (λ d, (d_name d, pv ds (vals_to k) (rows_to k) d)) ds,
     (reject, re ds (vals_to k) (rows_to k)) :: map (λ c, (c.1, fv ds (vals_to k) (rows_to k) (concat (map pg_vals (take k c.2))))) t).

  Lemma col_in d : d ∈ ds → (d_orig d, col d) ∈ t.
  Proof using Hds.
    intros Hd. destruct (Hds d Hd) as (Ho & _). unfold ColumnSelect.col.
    destruct (dget t (d_orig d)) as [c|] eqn:E; [by apply dget_in in E|]. apply dget_None in E. done.
  Qed.
  Lemma column_step (c : list page) k L : map (length ∘ pg_vals) c = lens → lens !! k = Some L →
    ∃ p, c !! k = Some p ∧ length (pg_vals p) = L ∧
      concat (map pg_vals (take (S k) c)) = concat (map pg_vals (take k c)) ++ pg_vals p ∧
      length (concat (map pg_vals (take k c))) = rows_to k.
  Proof using.
    clear. intros Hc Hk. rewrite <- Hc in Hk. change (map ?f c) with (f <$> c) in Hk. apply list_lookup_fmap_Some in Hk as (p & Hp & HpL).
    exists p. split_and!; [done|done| |].
    - rewrite (take_S_r c k p Hp). rewrite map_app, concat_app. cbn. by rewrite app_nil_r.
    - unfold rows_to. rewrite <- Hc. clear. revert k. induction c as [|p c IH]; intros [|k]; cbn; [done..|].
      rewrite app_length, IH. done.
  Qed.

  Lemma state_step reject k L : reject ∉ t.*1 → lens !! k = Some L →
    ∃ pages, pages_at t k = Ok pages ∧
    ∃ r, slice_convert kind knone kstr none estr conv no_text no_none no_value ps step pages reject ds
           (λ n, dget_or (map (λ d, (d_name d, negb (needs d))) ds) n false) = Ok r ∧
      (extend_table (state reject k).1 r.1, extend_table (state reject k).2 r.2) = state reject (S k).
  Proof using Hact Hdn Hds Hfit Hid Hkn Hks Hnd Hns Hok Hps Hstep.
    intros Hrej Hk.
    set (Pg := λ d, page_at (col d) k).
    exists (map (λ c, (c.1, page_at c.2 k)) t). split.
    { unfold pages_at.
      assert (Hm : mapM (λ c : string * list page, p ← c.2 !! k; Some (c.1, p)) t = Some (map (λ c, (c.1, page_at c.2 k)) t)).
      { apply mapM_Some. clear -Hok Hk. induction t as [|c t' IH]; [constructor|]. cbn [map]. constructor.
        - destruct (Hok c ltac:(left)) as [_ Hc]. destruct (column_step c.2 k L Hc Hk) as (p & Hp & _).
          unfold page_at. rewrite Hp. done.
        - apply IH. intros c' Hc'. apply Hok. by right. }
      rewrite Hm. done. }
    set (correct := λ n, dget_or (map (λ d, (d_name d, negb (needs d))) ds) n false).
    assert (Hcor : ∀ d, d ∈ ds → correct (d_name d) = negb (needs d)).
    { intros d Hd. assert (Hnd' : NoDup (map (λ d, (d_name d, negb (needs d))) ds).*1).
      { change (map ?f ds) with (f <$> ds). rewrite <- list_fmap_compose. exact Hdn. }
      unfold correct, dget_or. rewrite (proj2 (dget_Some _ (d_name d) (negb (needs d)) Hnd')); [done|].
      apply elem_of_list_fmap. exists d. done. }
    assert (Hcol : ∀ d, d ∈ ds → ∃ p, col d !! k = Some p ∧ Pg d = p ∧ length (pg_vals p) = L ∧
      vals_to (S k) d = vals_to k d ++ pg_vals p ∧ length (vals_to k d) = rows_to k).
    { intros d Hd. pose proof (col_in d Hd) as Hin. destruct (Hok _ Hin) as [_ Hc]. cbn [snd] in Hc.
      destruct (column_step (col d) k L Hc Hk) as (p & Hp & Hl & Hcc & Hlen). exists p. split_and!; try done.
      unfold Pg, page_at. rewrite Hp. done. }
    assert (Hpv : ∀ d v, d ∈ ds → v ∈ pg_vals (Pg d) → v ∈ vals d).
    { intros d v Hd Hv. destruct (Hcol d Hd) as (p & Hp & Hpg & _). rewrite Hpg in Hv. unfold ColumnSelect.vals.
      apply elem_of_list_In, in_concat. exists (pg_vals p). split; [|by apply elem_of_list_In].
      apply elem_of_list_In, elem_of_list_fmap. exists p. split; [done|]. by eapply elem_of_list_lookup_2. }
    assert (HL : (L ≤ ps)%nat) by exact (proj1 (list.Forall_lookup _ _) Hfit k L Hk).
    eexists. split.
    { apply (slice_convert_spec _ correct Pg L).
      - intros c Hc. apply elem_of_list_fmap in Hc as (c' & -> & Hc'). cbn [snd]. destruct (Hok c' Hc') as [Hf Hl].
        destruct (column_step c'.2 k L Hl Hk) as (p & Hp & HpL & _). unfold page_at. rewrite Hp. cbn [default].
        split; [|done]. exact (proj1 (list.Forall_lookup _ _) Hf k p Hp).
      - done.
      - apply list.Forall_forall. intros d Hd. pose proof (col_in d Hd) as Hin. destruct (Hds d Hd) as (_ & Hty & Hcv).
        destruct (Hok _ Hin) as [Hpo _]. cbn [snd] in Hpo.
        split_and!.
        + rewrite (dget_fmap (λ c, page_at c k) t). rewrite (proj2 (dget_Some t (d_orig d) (col d) Hnd) Hin). done.
        + rewrite Hcor by done. intros Hn. apply negb_true_iff in Hn. apply list.Forall_forall. intros v Hv.
          destruct (Hcol d Hd) as (p & Hp & Hpg & _). rewrite Hpg in Hv.
          apply (correct_wanted kind knone kstr none estr conv no_text no_none no_value Hkn Hks Hns Hid d (col d) p v); try done.
          by eapply elem_of_list_lookup_2.
        + rewrite Hcor by done. intros Hn. apply negb_false_iff in Hn. by apply Hty.
        + intros v e Hv. apply Hcv. by apply Hpv.
      - done.
      - destruct (Hact k L Hk) as [->|(d & Hd & Hd')]; [by left|]. right. apply existsb_exists. exists d.
        split; [by apply elem_of_list_In|]. unfold active. rewrite Hcor by done.
        destruct Hd' as [->|Ha]; [done|]. unfold Pg. rewrite Ha. cbn [negb]. apply orb_true_r. }
    cbv zeta. cbn [fst snd]. set (vs := λ d, pg_vals (Pg d)).
    assert (Hvs : ∀ d, d ∈ ds → vals_to (S k) d = vals_to k d ++ vs d ∧ length (vals_to k d) = rows_to k).
    { intros d Hd. destruct (Hcol d Hd) as (p & _ & Hpg & _ & H1 & H2). unfold vs. rewrite Hpg. done. }
    assert (Hrows : rows_to (S k) = (rows_to k + L)%nat).
    { unfold rows_to. rewrite (take_S_r lens k L Hk). rewrite sum_list_with_app. cbn. lia. }
    unfold state. cbn [fst snd]. f_equal.
    - assert (Hkeys : ∀ f : desired → list A, (map (λ d, (d_name d, f d)) ds).*1 = d_name <$> ds).
      { intros f. change (map ?g ds) with (g <$> ds). rewrite <- list_fmap_compose. done. }
      assert (Hx : (if decide (pa ds vs L = []) then [] else map (λ d, (d_name d, pv ds vs L d)) ds).*1 ⊆ d_name <$> ds).
      { destruct (decide _); [intros ? []%elem_of_nil|]. rewrite Hkeys. done. }
      rewrite extend_table_spec; cbn [fst].
      + change (map ?g ds) with (g <$> ds). rewrite <- list_fmap_compose. apply list_fmap_ext. intros i d Hd.
        apply elem_of_list_lookup_2 in Hd. unfold compose. cbn [fst snd]. f_equal. rewrite Hrows.
        rewrite (passed_app none estr kstr _ wish_of no_text no_none no_value ds (vals_to (S k)) (vals_to k) vs (rows_to k) L Hvs d Hd).
        f_equal. destruct (decide (pa ds vs L = [])) as [Hnil|].
        * unfold passed_values. rewrite Hnil. done.
        * assert (Hnd' : NoDup (map (λ d, (d_name d, pv ds vs L d)) ds).*1) by (rewrite Hkeys; exact Hdn).
          unfold dget_or. rewrite (proj2 (dget_Some _ (d_name d) (pv ds vs L d) Hnd')); [done|].
          apply elem_of_list_fmap. exists d. done.
      + by rewrite Hkeys.
      + destruct (decide _); [constructor|]. by rewrite Hkeys.
      + by rewrite Hkeys.
    - assert (Hkeys : ∀ f : string * list page → list A, (map (λ c, (c.1, f c)) t).*1 = t.*1).
      { intros f. change (map ?g t) with (g <$> t). rewrite <- list_fmap_compose. done. }
      set (cols := if decide (fa ds vs L = []) then [] else _).
      assert (Hcols : cols = [] ∧ fa ds vs L = [] ∨
        cols = map (λ c, (c.1, fv ds vs L (pg_vals (page_at c.2 k)))) t ++ [(reject, re ds vs L)]).
      { unfold cols. destruct (decide (fa ds vs L = [])); [by left|]. right. by rewrite map_map. }
      assert (Hck : NoDup cols.*1 ∧ cols.*1 ⊆ reject :: t.*1).
      { destruct Hcols as [[-> _]| ->]; [split; [constructor|intros ? []%elem_of_nil]|]. rewrite fmap_app, Hkeys. cbn. split.
        - apply list.NoDup_app. split_and!; [done| |apply NoDup_singleton]. intros n Hn ->%elem_of_list_singleton. done.
        - intros n [Hn| ->%elem_of_list_singleton]%elem_of_app; [by right|left]. }
      rewrite extend_table_spec; [|rewrite fmap_cons, Hkeys; cbn; apply list.NoDup_cons; done|apply Hck|rewrite fmap_cons, Hkeys; apply Hck].
      rewrite fmap_cons. cbn [fst snd]. f_equal.
      + f_equal. rewrite Hrows.
        rewrite (reasons_app none estr kstr _ wish_of no_text no_none no_value ds (vals_to (S k)) (vals_to k) vs (rows_to k) L Hvs).
        f_equal. destruct Hcols as [[Hc Hnil]| Hc]; rewrite Hc.
        * unfold reasons. rewrite Hnil. done.
        * destruct Hck as [Hck _]. rewrite Hc in Hck. unfold dget_or. rewrite (proj2 (dget_Some _ reject (re ds vs L) Hck)); [done|].
          apply elem_of_app. right. left.
      + change (map ?g t) with (g <$> t). rewrite <- list_fmap_compose. apply list_fmap_ext. intros i c Hc.
        apply elem_of_list_lookup_2 in Hc. unfold compose. cbn [fst snd]. f_equal. rewrite Hrows.
        destruct (Hok c Hc) as [_ Hl]. destruct (column_step c.2 k L Hl Hk) as (p & Hp & HpL & Hcc & Hlen).
        rewrite Hcc.
        rewrite (failed_app none estr kstr _ wish_of no_text no_none no_value ds (vals_to (S k)) (vals_to k) vs (rows_to k) L Hvs) by done.
        f_equal. assert (Hpa : page_at c.2 k = p) by (unfold page_at; by rewrite Hp).
        destruct Hcols as [[Hcn Hnil]| Hcn]; rewrite Hcn.
        * unfold failed_values. rewrite Hnil. done.
        * destruct Hck as [Hck _]. rewrite Hcn in Hck. unfold dget_or. rewrite (proj2 (dget_Some _ c.1 (fv ds vs L (pg_vals p)) Hck)); [done|].
          apply elem_of_app. left. apply elem_of_list_fmap. exists c. by rewrite Hpa.
  Qed.

  Lemma convert_pages_spec reject m : ∀ k, reject ∉ t.*1 → (k + m = length lens)%nat →
    convert_pages kind knone kstr none estr conv no_text no_none no_value ps step t reject ds
      (λ n, dget_or (map (λ d, (d_name d, negb (needs d))) ds) n false) (seq k m) (state reject k) = Ok (state reject (length lens)).
  Proof using Hact Hdn Hds Hfit Hid Hkn Hks Hnd Hns Hok Hps Hstep.
    induction m as [|m IH]; intros k Hrej Hkm.
    { cbn. repeat f_equal. lia. }
    cbn [seq convert_pages]. destruct (lookup_lt_is_Some_2 lens k ltac:(lia)) as [L HL].
    destruct (state_step reject k L Hrej HL) as (pages & -> & r & Hr & Hst). cbn [res_bind]. rewrite Hr. cbn [res_bind].
    rewrite Hst. apply IH; [done|lia].
  Qed.

  Lemma column_total (c : list page) : map (length ∘ pg_vals) c = lens → layout c = (sum_list lens, length lens).
  Proof using.
    clear. intros <-. unfold layout. rewrite map_length. f_equal.
    induction c as [|p c IH]; [done|]. cbn. rewrite app_length, IH. done.
  Qed.

  Theorem column_select_spec (cols : list (request (K := K))) : desired_columns knone cols = ds →
    ∃ reject, unique_name "reject_reason" t.*1 = Some reject ∧ reject ∉ t.*1 ∧
      column_select kind knone kstr none estr conv no_text no_none no_value ps step t cols =
        Ok (map (λ d, (d_name d, pv ds vals (sum_list lens) d)) ds,
            (reject, re ds vals (sum_list lens)) :: map (λ c, (c.1, fv ds vals (sum_list lens) (concat (map pg_vals c.2)))) t).
  Proof using Hact Hdn Hds Hfit Hid Hkn Hks Hnd Hne Hns Hok Hps Hstep.
    intros Hcols. destruct (unique_name_spec "reject_reason" t.*1) as (reject & Hu & Hrej & _).
    exists reject. split_and!; [done|done|].
    unfold column_select. rewrite Hcols.
    assert (Hpc : page_count t = Ok (length lens)).
    { unfold page_count. destruct t as [|[n c] t'] eqn:Et; [done|].
      assert (Hlay : ∀ c', c' ∈ (n, c) :: t' → layout c'.2 = (sum_list lens, length lens)).
      { intros c' Hc'. apply column_total. apply Hok. done. }
      rewrite (proj2 (forallb_forall _ _)).
      - destruct (Hok (n, c) ltac:(left)) as [_ Hl]. cbn [snd] in Hl. rewrite <- Hl, map_length. done.
      - intros c' Hc'. apply bool_decide_eq_true_2. rewrite (Hlay c') by (right; by apply elem_of_list_In).
        symmetry. apply (Hlay (n, c)). left. }
    rewrite Hpc. cbn [res_bind].
    assert (Hm : mapM (λ d, c ← dget t (d_orig d); Some (d_name d, negb (needs_to_iterate kind knone kstr d c))) ds =
      Some (map (λ d, (d_name d, negb (needs d))) ds)).
    { assert (Hin : ∀ d, d ∈ ds → (d_orig d, col d) ∈ t) by exact col_in. clear -Hin Hnd.
      apply mapM_Some. induction ds as [|d ds' IH]; [constructor|]. cbn [map]. constructor.
      - rewrite (proj2 (dget_Some t (d_orig d) (col d) Hnd) (Hin d ltac:(left))). done.
      - apply IH. intros d' Hd'. apply Hin. by right. }
    rewrite Hm, Hu. cbv zeta.
    assert (Hfull : ∀ c : list page, map (length ∘ pg_vals) c = lens → take (length lens) c = c).
    { intros c Hc. apply take_ge. rewrite <- Hc, map_length. done. }
    assert (Hv : ∀ d, d ∈ ds → vals_to (length lens) d = vals d).
    { intros d Hd. unfold vals_to, ColumnSelect.vals. rewrite Hfull; [done|]. apply (Hok _ (col_in d Hd)). }
    assert (Hrr : ∀ i, rr ds (vals_to (length lens)) i = rr ds vals i).
    { intros i. apply rr_ext. intros d Hd. by rewrite Hv. }
    assert (Hpa : ∀ n, pa ds (vals_to (length lens)) n = pa ds vals n).
    { intros n. apply filter_ext_elem. intros i _. by rewrite Hrr. }
    assert (Hfa : ∀ n, fa ds (vals_to (length lens)) n = fa ds vals n).
    { intros n. apply filter_ext_elem. intros i _. by rewrite Hrr. }
    destruct (forallb snd _) eqn:Eall.
    - (* nothing to convert *)
      rewrite forallb_forall in Eall.
      assert (Hall : ∀ d, d ∈ ds → needs d = false).
      { intros d Hd. apply negb_true_iff. apply (Eall (d_name d, negb (needs d))). apply elem_of_list_In, elem_of_list_fmap. eauto. }
      assert (Hw : ∀ d v, d ∈ ds → v ∈ vals d → W d v = inl v).
      { intros d v Hd Hv'. unfold ColumnSelect.vals in Hv'. apply elem_of_list_In, in_concat in Hv' as (l & Hl & Hvl).
        apply elem_of_list_In, elem_of_list_fmap in Hl as (p & -> & Hp). apply elem_of_list_In in Hvl.
        destruct (Hok _ (col_in d Hd)) as [Hpo _].
        apply (correct_wanted kind knone kstr none estr conv no_text no_none no_value Hkn Hks Hns Hid d (col d) p v); try done. by apply Hall. }
      assert (Hcw : ∀ d i, d ∈ ds → cw vals i d = inl <$> vals d !! i).
      { intros d i Hd. unfold cell_wanted. destruct (vals d !! i) as [v|] eqn:Ev; [|done]. cbn. rewrite Hw; [done|done|].
        by eapply elem_of_list_lookup_2. }
      assert (Hrr0 : ∀ i, rr ds vals i = None).
      { intros i. unfold row_reason. rewrite (omap_ext_in _ (λ _, None)).
        - clear. induction ds; done.
        - intros d Hd. rewrite Hcw by done. destruct (vals d !! i); done. }
      assert (Hpa0 : ∀ n, pa ds vals n = seq 0 n).
      { intros n. apply list_filter_all. apply list.Forall_forall. intros i _. apply Hrr0. }
      assert (Hfa0 : ∀ n, fa ds vals n = []).
      { intros n. destruct (fa ds vals n) as [|i l] eqn:E; [done|]. assert (Hi : i ∈ fa ds vals n) by (rewrite E; left).
        apply failing_lt in Hi as [_ Hi]. by rewrite Hrr0 in Hi. }
      f_equal. f_equal.
      + apply list_fmap_ext. intros i d Hd. apply elem_of_list_lookup_2 in Hd. f_equal. change (concat (map pg_vals (col d))) with (vals d).
        unfold passed_values. rewrite Hpa0.
        assert (Hlen : sum_list lens = length (vals d)).
        { pose proof (column_total (col d) (proj2 (Hok _ (col_in d Hd)))) as Hlay. unfold layout in Hlay. inversion Hlay. done. }
        rewrite Hlen. transitivity (omap (λ i, vals d !! i) (seq 0 (length (vals d)))); [symmetry; apply omap_lookup_all|]. apply omap_ext_in. intros j _. rewrite Hcw by done.
        destruct (vals d !! j); done.
      + cbn [map]. unfold reasons, failed_values. rewrite Hfa0. cbn. f_equal. rewrite <- list_fmap_compose. done.
    - assert (Hstate0 : (map (λ d, (d_name d, [])) ds, map (λ n, (n, [])) (reject :: t.*1)) = state reject 0).
      { unfold state. f_equal. cbn [map]. f_equal. change (map ?f t.*1) with (f <$> t.*1). rewrite <- list_fmap_compose. done. }
      rewrite Hstate0. rewrite convert_pages_spec by (done || lia). f_equal. unfold state, rows_to. rewrite take_ge by done. f_equal.
      + apply list_fmap_ext. intros i d Hd. apply elem_of_list_lookup_2 in Hd. f_equal. unfold passed_values. rewrite Hpa.
        apply omap_ext_in. intros j _. unfold cell_wanted. by rewrite Hv.
      + f_equal.
        * f_equal. unfold reasons. rewrite Hfa. apply omap_ext_in. intros j _. apply Hrr.
        * apply list_fmap_ext. intros i c Hc. apply elem_of_list_lookup_2 in Hc. f_equal. unfold failed_values.
          rewrite Hfa. rewrite Hfull; [done|]. apply (Hok _ Hc).
  Qed.
End table.
