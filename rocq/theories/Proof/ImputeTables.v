(** Mean and mode imputation of a table. *)
From stdpp Require Import functions.
From Verif.Spec Require Export HeapTerms.
From Verif.Model Require Import Imputation.
From Verif.Proof Require Import DictLemmas TableBase ColumnRead ColumnMisc HeapProofs HeapFinal StatsProofs ColumnStatsProofs.
From Verif.Proof Require Export ImputationProofs ImputeStats.
Local Open Scope Z_scope.
From Verif.Proof Require Import HeapProofs HeapFinal.

Section replace.
  Context {N A T : Type} `{EqDecision N, EqDecision T} (ty : A → T).
  Context (ps : Z) (cast : list (page A T) → A → res A) (np_array : list A → list A) (eqb : A → A → bool).

  Lemma h_replace_loop_data conv m (w : list A) : ∀ d,
    Forall (λ x, existsb (eqb x) (map fst m) = true) w →
    (∀ kv, kv ∈ m → conv kv.2 = Ok kv.2) →
    (h_replace_loop ty eqb conv m w d).1 = Ok (map (subst_value eqb m) w).
  Proof using Type.
    induction w as [|x w IH]; intros d Hw Hc; [done|]. apply list.Forall_cons in Hw as [Hx Hw]. cbn [h_replace_loop].
    rewrite map_get_find. cbn [map]. unfold subst_value at 1.
    destruct (List.find (λ kv, eqb x kv.1) m) as [kv|] eqn:Hf.
    2:{ exfalso. apply existsb_exists in Hx as (k & (kv & <- & Hin)%in_map_iff & Hk).
        pose proof (List.find_none _ _ Hf _ Hin). simpl in *. congruence. }
    apply List.find_some in Hf as [Hin _]. rewrite (Hc kv) by (by apply elem_of_list_In). cbn [fst].
    by rewrite IH.
  Qed.
  Lemma h_replace_data m (c : list (hpage A)) :
    np_array (map fst m) = map fst m →
    (∀ p, p ∈ c → existsb (λ x, existsb (eqb x) (map fst m)) (hdata p) = true →
       ∀ d kv, kv ∈ m → cast [MkPage (hdata p) d] kv.2 = Ok kv.2) →
    ∀ ds, (h_replace ty cast np_array eqb m ds c).2 = Ok () ∧
      map hdata (h_replace ty cast np_array eqb m ds c).1.2 = map (λ p, map (subst_value eqb m) (hdata p)) c.
  Proof using Type.
    intros Hnp. induction c as [|p c IH]; intros Hc ds; [done|]. cbn [h_replace]. cbv zeta. rewrite Hnp, existsb_id.
    set (hit := λ x, existsb (eqb x) (map fst m)).
    assert (Hsub : ∀ x, (if hit x then subst_value eqb m x else x) = subst_value eqb m x).
    { intros x. destruct (hit x) eqn:Hx; [done|]. by rewrite subst_value_miss. }
    assert (IH' := IH (λ q Hq, Hc q (elem_of_list_further _ _ _ Hq))).
    destruct (existsb hit (hdata p)) eqn:He.
    - rewrite (masked hit).
      assert (Hl : (h_replace_loop ty eqb (cast [deref ds p]) m (filter (λ x, hit x = true) (hdata p)) (default [] (ds !! hdict p))).1
        = Ok (map (subst_value eqb m) (filter (λ x, hit x = true) (hdata p)))).
      { apply h_replace_loop_data.
        - apply list.Forall_forall. intros x [Hx _]%elem_of_list_filter. done.
        - intros kv Hkv. apply Hc; [left|done|done]. }
      destruct (h_replace_loop _ _ _ _ _ _) as [w d]. cbn [fst snd] in *. subst w.
      destruct (IH' (<[hdict p:=d]> ds)) as [H1 H2]. destruct (h_replace _ _ _ _ _ _ c) as [[ds' c'] e]. cbn [fst snd] in *.
      split; [done|]. cbn [map hdata]. rewrite H2, put_masked_spec. f_equal. by apply map_ext.
    - destruct (IH' ds) as [H1 H2]. destruct (h_replace _ _ _ _ _ _ c) as [[ds' c'] e]. cbn [fst snd] in *.
      split; [done|]. cbn [map]. rewrite H2. f_equal.
      clear -He. induction (hdata p) as [|x l IH]; [done|]. cbn in *. apply orb_false_iff in He as [Hx He].
      rewrite <- IH by done. by rewrite subst_value_miss.
  Qed.
End replace.

Section stats.
  Context {N A T K : Type} `{EqDecision N, EqDecision T, EqDecision K} (ty : A → T) (key : A → K) (none : A).
  Context (ps : Z) (cast : list (page A T) → A → res A) (np_array : list A → list A) (eqb : A → A → bool) (missing : list A).
  Context (is_num : T → bool) (num : K → Q) (of_num : Q → A) (other : T → list (K * Z) → res A) (comparable : list A → bool).
  Notation heap := (heap N A T).
  Notation step := (step ty ps cast np_array eqb).
  Notation is_missing := (is_missing eqb missing).
  Notation new_value := (new_value ty key none missing is_num num of_num other comparable).
  Notation stats_columns := (stats_columns ty key none ps cast np_array eqb missing is_num num of_num other comparable).
  Notation stats_method := (stats_method ty key none ps cast np_array eqb missing is_num num of_num other comparable).

  Lemma iter_pages (h : heap) a : col_iter (col_view h a) = concat (pages_of h a).
  Proof using Type. unfold col_iter, col_view, pages_of. by rewrite map_map. Qed.
  Lemma view_pages (h : heap) a : map pdata (col_view h a) = pages_of h a.
  Proof using Type. unfold col_view, pages_of. by rewrite map_map. Qed.
  Lemma new_value_ext me (c c' : column A T) : map pdata c = map pdata c' → new_value me c = new_value me c'.
  Proof using Type.
    intros E. unfold Imputation.new_value. do 2 f_equal. unfold col_histogram. generalize (@nil ((T * K) * Z)).
    revert c' E. induction c as [|p c IH]; intros [|p' c'] E d; try done. injection E as E1 E2. cbn [fold_left].
    unfold histogram_page at 2 4. rewrite E1. by apply IH.
  Qed.

  Lemma subst_missing v x : subst_value eqb (map (λ m, (m, v)) missing) x = if is_missing x then v else x.
  Proof using Type.
    unfold subst_value, Imputation.is_missing. induction missing as [|m l IH]; [done|]. cbn [map List.find existsb fst].
    destruct (eqb x m); [done|exact IH].
  Qed.
  Lemma fst_missing (v : A) : map fst (map (λ m : A, (m, v)) missing) = missing.
  Proof using Type. rewrite map_map. cbn. apply map_id. Qed.

  (** the value of a column, and that it can be stored in the pages which have a missing value *)
  Definition value_fits me (c : column A T) (v : A) : Prop :=
    new_value me c = Ok v ∧
    ∀ p d, p ∈ c → existsb is_missing (pdata p) = true → cast [MkPage (pdata p) d] v = Ok v.
  Definition filled me (h : heap) a (h' : heap) : Prop :=
    ∃ v, new_value me (col_view h a) = Ok v ∧ col_iter (col_view h' a) = filled_with is_missing v (col_iter (col_view h a)).

  Context (Hnp : np_array missing = missing).
  Lemma replace_step (h : heap) i n a v me : wf h → dget (tabs h i) n = Some a → value_fits me (col_view h a) v →
    let r := step h (OCol i n (Replace (map (λ m, (m, v)) missing))) in
    r.2 = Ok () ∧ wf r.1 ∧ tabs r.1 = tabs h ∧ length (hcols r.1) = length (hcols h) ∧
    (∀ b, b ≠ a → pages_of r.1 b = pages_of h b) ∧
    pages_of r.1 a = map (filled_with is_missing v) (pages_of h a).
  Proof using Hnp.
    intros Hwf Ha [_ Hfit] r. assert (Hal : (a < length (hcols h))%nat).
    { apply HeapProofs.dget_elem in Ha. by eapply Hwf. }
    assert (Hw : writes [a] h r.1).
    { subst r. cbn [Heap.step]. unfold with_col. rewrite Ha. by apply col_op_writes. }
    subst r. cbn [Heap.step] in *. unfold with_col in *. rewrite Ha in *. cbn [col_op] in *.
    destruct (h_replace_data ty cast np_array eqb (map (λ m, (m, v)) missing) (col_at h a)) with (ds := dicts h) as [H1 H2].
    { by rewrite fst_missing. }
    { rewrite fst_missing. intros p Hp He d kv (m & -> & _)%elem_of_list_fmap. cbn [snd].
      apply (Hfit (deref (dicts h) p) d); [|done]. unfold col_view. by apply elem_of_list_fmap_1. }
    destruct (h_replace _ _ _ _ _ _ _) as [[ds c] e]. cbn [fst snd] in *. split; [done|]. split; [apply Hw|]. split; [done|].
    split; [apply (w_len _ _ _ Hw)|]. split.
    - intros b Hb. unfold pages_of, col_at. rewrite (w_frame _ _ _ Hw); [done|]. by rewrite elem_of_list_singleton.
    - unfold pages_of at 1; unfold col_at at 1. cbn [set_col hcols]. rewrite list_lookup_insert by done. etransitivity; [exact H2|]. unfold pages_of. rewrite map_map.
      apply map_ext. intros p. unfold filled_with. apply map_ext. apply subst_missing.
  Qed.

  Lemma stats_columns_spec me i k targets l : i ≠ k → ∀ h : heap, wf h → NoDup l.*1 → NoDup l.*2 →
    (∀ n a, (n, a) ∈ l → dget (tabs h i) n = Some a ∧ n ∈ (tabs h k).*1 ∧
                         (n ∈ targets → ∃ v, value_fits me (col_view h a) v)) →
    ∃ h', stats_columns me h i k l targets = (h', Ok ()) ∧ wf h' ∧
      (∀ x, x ≠ k → tabs h' x = tabs h x) ∧ (tabs h' k).*1 = (tabs h k).*1 ∧
      (∀ n, n ∉ l.*1 → dget (tabs h' k) n = dget (tabs h k) n) ∧
      (∀ b, (∀ n, (n, b) ∈ l → n ∉ targets) → pages_of h' b = pages_of h b) ∧
      ∀ n a, (n, a) ∈ l → dget (tabs h' k) n = Some a ∧ (n ∈ targets → filled me h a h').
  Proof using Hnp.
    intros Hik. induction l as [|[n a] l IH]; intros h Hwf Hnd Hnd2 Hl; cbn [Imputation.stats_columns].
    { exists h. split_and!; try done. intros n a H. by apply elem_of_nil in H. }
    rewrite fmap_cons in Hnd. cbn [fst] in Hnd. rewrite fmap_cons in Hnd2. cbn [snd] in Hnd2.
    apply list.NoDup_cons in Hnd as [Hn Hnd]. apply list.NoDup_cons in Hnd2 as [Ha2 Hnd2].
    destruct (Hl n a) as (Hi & Hk & Hfit); [left|].
    (* the rest, from a heap whose column a has been dealt with *)
    assert (Hend : ∀ h1 : heap, wf h1 → tabs h1 = tabs h → 
      (∀ b, b ≠ a ∨ n ∉ targets → pages_of h1 b = pages_of h b) →
      (n ∈ targets → filled me h a h1) →
      ∃ h', stats_columns me (step h1 (OSetCol k n i n)).1 i k l targets = (h', Ok ()) ∧ wf h' ∧
      (∀ x, x ≠ k → tabs h' x = tabs h x) ∧ (tabs h' k).*1 = (tabs h k).*1 ∧
      (∀ m, m ∉ ((n, a) :: l).*1 → dget (tabs h' k) m = dget (tabs h k) m) ∧
      (∀ b, (∀ m, (m, b) ∈ (n, a) :: l → m ∉ targets) → pages_of h' b = pages_of h b) ∧
      ∀ m b, (m, b) ∈ (n, a) :: l → dget (tabs h' k) m = Some b ∧ (m ∈ targets → filled me h b h')).
    { intros h1 Hwf1 Ht1 Hother Hdone.
      destruct (share_frame ty ps cast np_array eqb h1 i k n a Hwf1) as (Hf & Hne & Hb & Hc & Hd); [by rewrite Ht1|by rewrite Ht1|].
      set (h2 := (step h1 (OSetCol k n i n)).1) in *.
      assert (Hp2 : ∀ b, pages_of h2 b = pages_of h1 b) by (intros b; unfold pages_of, col_at; by rewrite Hc).
      assert (Hlo : ∀ m b, (m, b) ∈ l → pages_of h2 b = pages_of h b).
      { intros m b Hm. rewrite Hp2. apply Hother. left. intros ->. apply Ha2. by apply (elem_of_list_fmap_1 snd) in Hm. }
      destruct (IH h2 (f_wf _ _ _ Hf) Hnd Hnd2) as (h' & Hr & Hw' & Ht' & Hn' & Hg' & Hp' & Hin').
      { intros m b Hm. destruct (Hl m b) as (E1 & E2 & E3); [by right|]. split_and!.
        - by rewrite (f_tabs _ _ _ Hf), Ht1.
        - by rewrite (f_names _ _ _ Hf), Ht1.
        - intros Hmt. destruct (E3 Hmt) as (v & Hv1 & Hv2). exists v.
          assert (Ev : map pdata (col_view h2 b) = map pdata (col_view h b)).
          { rewrite !view_pages. by eapply Hlo. }
          split; [by rewrite (new_value_ext me _ _ Ev)|]. intros p d Hp He.
          apply (elem_of_list_fmap_1 pdata) in Hp. change (pdata p ∈ map pdata (col_view h2 b)) in Hp. rewrite Ev in Hp.
          apply elem_of_list_fmap in Hp as (q & Eq & Hq). rewrite Eq in *. by apply Hv2. }
      exists h'. split_and!; [done|done| | | | |].
      - intros x Hx. by rewrite Ht', (f_tabs _ _ _ Hf), Ht1.
      - by rewrite Hn', (f_names _ _ _ Hf), Ht1.
      - intros m Hm. rewrite fmap_cons, not_elem_of_cons in Hm. cbn [fst] in Hm. destruct Hm. by rewrite Hg', Hne, Ht1.
      - intros b Hb'. rewrite Hp' by (intros m Hm; apply Hb'; by right). rewrite Hp2. apply Hother.
        destruct (decide (b = a)) as [->|]; [right|by left]. apply Hb'. left.
      - intros m b [[= -> ->]|Hm]%elem_of_cons.
        + split; [by rewrite Hg'|]. intros Hmt. destruct (Hdone Hmt) as (v & Hv & Hit). exists v. split; [done|].
          rewrite <- Hit, !iter_pages, Hp', Hp2; [done|]. intros m' Hm'. exfalso. apply Ha2. by apply (elem_of_list_fmap_1 snd) in Hm'.
        + destruct (Hin' m b Hm) as [Hg Hfil]. split; [done|]. intros Hmt. destruct (Hfil Hmt) as (v & Hv & Hit). exists v.
          rewrite (new_value_ext me _ (col_view h b)) in Hv by (rewrite !view_pages; by eapply Hlo). split; [done|].
          rewrite Hit. f_equal. rewrite !iter_pages. f_equal. by eapply Hlo. }
    destruct (bool_decide (n ∈ targets)) eqn:Et.
    - apply bool_decide_eq_true_1 in Et. destruct (Hfit Et) as (v & Hv). rewrite (proj1 Hv).
      destruct (replace_step h i n a v me Hwf Hi Hv) as (H1 & H2 & H3 & H4 & H5 & H6).
      destruct (step h _) as [h1 r]. cbn [fst snd] in *. subst r. apply Hend; [done|done| |].
      + intros b [Hb|Hb]; [by apply H5|done].
      + intros _. exists v. split; [apply Hv|]. rewrite !iter_pages, H6. unfold filled_with. by rewrite concat_map.
    - apply bool_decide_eq_false_1 in Et. apply Hend; done.
  Qed.

  Theorem stats_method_spec me (h : heap) i k targets : wf h → names_ok h → i ≠ k → NoDup (tabs h i).*2 →
    (∀ n, n ∈ targets → ∃ a v, dget (tabs h i) n = Some a ∧ value_fits me (col_view h a) v) →
    ∃ h', stats_method me h i k targets = (h', Ok ()) ∧
      tabs h' k ≡ₚ tabs h i ∧ (∀ x, x ≠ k → tabs h' x = tabs h x) ∧
      (∀ b, (b < length (hcols h))%nat → (∀ n, (n, b) ∈ tabs h i → n ∉ targets) → pages_of h' b = pages_of h b) ∧
      ∀ n a, (n, a) ∈ tabs h i → n ∈ targets → filled me h a h'.
  Proof using Hnp.
    intros Hwf Hnames Hik Hnd2 Ht. unfold Imputation.stats_method, check_targets.
    assert (forallb (λ n, bool_decide (n ∈ (tabs h i).*1)) targets = true) as ->.
    { apply forallb_forall. intros n Hn%elem_of_list_In. apply bool_decide_eq_true_2. destruct (Ht n Hn) as (a & _ & Ha & _).
      apply HeapProofs.dget_elem in Ha. by apply (elem_of_list_fmap_1 fst) in Ha. }
    destruct (copy_frame ty ps cast np_array eqb h i k Hwf Hnames Hik) as (H1 & [q H2] & H3 & H4 & H5).
    set (h1 := (step h (OCopy i k)).1) in *. cbv zeta.
    assert (Hpg : ∀ a, (a < length (hcols h))%nat → pages_of h1 a = pages_of h a).
    { intros a Ha. unfold pages_of, col_at. by rewrite H2, lookup_app_l. }
    assert (Hview : ∀ a, (a < length (hcols h))%nat → col_view h1 a = col_view h a).
    { intros a Ha. apply view_grown; [done|done|]. by rewrite H2, lookup_app_l. }
    rewrite (H1 i Hik).
    destruct (stats_columns_spec me i k targets (tabs h i) Hik h1 H4 (Hnames i) Hnd2) as (h' & Hr & Hw & Htabs & Hnk & Hg & Hp & Hin).
    { intros n a Hna. assert (Ha : (a < length (hcols h))%nat) by (by eapply Hwf).
      assert (Hgt : dget (tabs h i) n = Some a) by (by apply dget_Some). split_and!.
      - by rewrite (H1 i Hik).
      - rewrite H5. by apply (elem_of_list_fmap_1 fst) in Hna.
      - intros Hn. destruct (Ht n Hn) as (b & v & Hb & Hv). exists v. rewrite Hview by done. congruence. }
    exists h'. split; [exact Hr|]. split_and!.
    - assert (Hnk' : (tabs h' k).*1 = (tabs h i).*1) by (by rewrite Hnk).
      assert (HndK : NoDup (tabs h' k).*1) by (rewrite Hnk'; apply Hnames).
      apply NoDup_Permutation; [by apply NoDup_fmap_1 in HndK|eapply NoDup_fmap_1, Hnames|].
      intros [n a]. split; [|intros Hna; apply HeapProofs.dget_elem; by apply Hin].
      intros Hna. assert (Hn : n ∈ (tabs h i).*1) by (rewrite <- Hnk'; by apply (elem_of_list_fmap_1 fst) in Hna).
      apply elem_of_list_fmap in Hn as ([n' b] & -> & Hb). cbn in *. destruct (Hin n' b Hb) as [E _].
      apply dget_Some in Hna; [|done]. congruence.
    - intros x Hx. by rewrite Htabs, H1.
    - intros b Hb Hnt. by rewrite Hp, Hpg.
    - intros n a Hna Hnt. destruct (Hin n a Hna) as [_ Hf]. destruct (Hf Hnt) as (v & Hv & Hit).
      assert (Ha : (a < length (hcols h))%nat) by (by eapply Hwf). rewrite Hview in Hv, Hit by done. by exists v.
  Qed.

  (** ** the value *)
  Theorem new_value_spec (Heqb : ∀ x y, eqb x y = true ↔ key x = key y) me (c : column A T) t :
    type_faithful ty key (col_iter c) →
    (∀ t', t' ≠ t → (length (known_of ty eqb missing t' (col_iter c)) < length (known_of ty eqb missing t (col_iter c)))%nat) →
    (0 < length (known_of ty eqb missing t (col_iter c)))%nat →
    is_num t = true →
    (∀ x y, x ∈ col_iter c → y ∈ col_iter c → ty x = t → ty y = t → (num (key x) == num (key y))%Q → key x = key y) →
    (∀ x, x ∈ col_iter c → ty x = t → is_missing x = true →
       ∃ y, y ∈ known_of ty eqb missing t (col_iter c) ∧ (num (key y) < num (key x))%Q) →
    let ns := numbers ty key eqb missing (col_iter c) t num in
    ∃ q, new_value me c = Ok (of_num q) ∧
      match me with
      | Mean => (q == qmean ns)%Q
      | Mode => q ∈ ns ∧ ∀ x, x ∈ ns → (qcount x ns <= qcount q ns)%nat ∧ (qcount x ns = qcount q ns → (q <= x)%Q)
      end.
  Proof using Type.
    intros Hfaith Hstrict Hpos Hnt Hnum Hleast ns.
    assert (Hhist : counts_exactly (col_histogram ty key comparable c) (map (λ x, (ty x, key x)) (col_iter c))).
    { apply col_histogram_spec. apply list.Forall_forall. intros p Hp _ x y Hx Hy. apply Hfaith;
        unfold col_iter; apply elem_of_list_In, in_concat; exists (pdata p); (split; [apply in_map, elem_of_list_In|apply elem_of_list_In]); done. }
    unfold Imputation.new_value, summary_statistics.
    pose proof (dominant ty key eqb Heqb missing (col_iter c) Hfaith _ Hhist t) as Hd. unfold zeroed in Hd. rewrite Hd; clear Hd.
    2:{ lia. } 2:{ intros t' Ht'. specialize (Hstrict t' Ht'). lia. }
    rewrite (proj2 (Z.ltb_lt _ _)) by lia.
    destruct (statistic ty key eqb Heqb missing (col_iter c) Hfaith _ Hhist t) with (num := num) as (s & m & Hs & Hmean & Hmode & Hin & Hmax); try done.
    { lia. } { intros t' Ht'. specialize (Hstrict t' Ht'). lia. }
    unfold summary_method. rewrite Hnt. unfold of_type, zeroed in Hs. rewrite Hs. cbn [res_bind].
    destruct me; [by exists (st_mean s)|]. rewrite Hmode. by exists m.
  Qed.
End stats.
