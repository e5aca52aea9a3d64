(** Carry-forward imputation. *)
From stdpp Require Import functions.
From Verif.Spec Require Export Impute.
From Verif.Model Require Import Imputation Dtype.
From Verif.Proof Require Import DictLemmas TableBase ColumnRead ColumnMisc SliceLemmas HeapProofs HeapFinal.
Local Open Scope Z_scope.

Section carry.
  Context {A : Type} (eqb : A → A → bool) (missing : list A).
  Notation is_missing := (is_missing eqb missing).

  Lemma carry_loop_spec conv xs : ∀ last,
    (∀ v, v ∈ xs → conv v = Ok v) → (∀ x, head xs = Some x → is_missing x = true → conv last = Ok last) →
    ∃ ys, carry_loop eqb missing conv xs last = Ok ys ∧ carried is_missing last xs ys.
  Proof.
    induction xs as [|x xs IH]; intros last Hc Hl; cbn [carry_loop].
    { exists []. split; [done|]. split; [done|]. intros i x H. done. }
    destruct (is_missing x) eqn:Ex.
    - rewrite (Hl x) by done. cbn [res_bind].
      destruct (IH last) as (ys & -> & Hlen & Hys).
      { intros v Hv. apply Hc. by right. }
      { intros y _ _. by eapply (Hl x). }
      exists (last :: ys). split; [done|]. split; [cbn; by rewrite Hlen|].
      intros [|i] y Hy; simpl in Hy |- *; [injection Hy as <-; by rewrite Ex|].
      rewrite (Hys i y Hy). destruct (is_missing y); [|done]. f_equal.
      unfold previous. cbn [take]. unfold known at 2. rewrite filter_cons, decide_False by (by rewrite Ex). done.
    - destruct (IH x) as (ys & -> & Hlen & Hys).
      { intros v Hv. apply Hc. by right. }
      { intros y _ _. apply Hc. by left. }
      exists (x :: ys). split; [done|]. split; [cbn; by rewrite Hlen|].
      intros [|i] y Hy; simpl in Hy |- *; [injection Hy as <-; by rewrite Ex|].
      rewrite (Hys i y Hy). destruct (is_missing y); [|done]. f_equal.
      unfold previous. cbn [take]. unfold known at 2. rewrite filter_cons, decide_True by done. fold (known is_missing (take i xs)).
      rewrite last_cons. by destruct (list.last _).
  Qed.
  Lemma carried_fun none xs ys ys' : carried is_missing none xs ys → carried is_missing none xs ys' → ys = ys'.
  Proof.
    intros [L1 H1] [L2 H2]. apply list_eq. intros i. destruct (xs !! i) as [x|] eqn:E.
    - by rewrite (H1 _ _ E), (H2 _ _ E).
    - apply lookup_ge_None in E. rewrite !lookup_ge_None_2; [done|lia|lia].
  Qed.
End carry.

(** ** The table *)
Section table.
  Context {N A T K : Type} `{EqDecision N, EqDecision T, EqDecision K} (ty : A → T) (key : A → K) (none : A).
  Context (ps : Z) (cast : list (page A T) → A → res A) (np_array : list A → list A) (eqb : A → A → bool) (missing : list A).
  Notation heap := (heap N A T).
  Notation step := (step ty ps cast np_array eqb).
  Notation is_missing := (is_missing eqb missing).

  (** what the loops keep: only table k changes, columns are added *)
  Record frame (k : nat) (h h' : heap) : Prop := MkFrame {
    f_tabs : ∀ x, x ≠ k → tabs h' x = tabs h x;
    f_names : (tabs h' k).*1 = (tabs h k).*1;
    f_cols : ∃ l, hcols h' = hcols h ++ l;
    f_grown : grown h h';
    f_wf : wf h' }.
  Lemma frame_refl k h : wf h → frame k h h.
  Proof using Type. intros. split; [done|done|exists []; by rewrite app_nil_r|apply grown_refl|done]. Qed.
  Lemma frame_trans k h1 h2 h3 : frame k h1 h2 → frame k h2 h3 → frame k h1 h3.
  Proof using Type.
    intros [t n [l c] g w] [t' n' [l' c'] g' w']. split; [|congruence| |by eapply grown_trans|done].
    - intros x Hx. by rewrite t', t.
    - exists (l ++ l'). by rewrite c', c, app_assoc.
  Qed.
  Lemma frame_view k h h' a : wf h → frame k h h' → (a < length (hcols h))%nat → col_view h' a = col_view h a.
  Proof using Type.
    intros Hwf [_ _ [l c] g _] Ha. apply view_grown; [done|done|]. by rewrite c, lookup_app_l.
  Qed.
  Lemma frame_table k h h' x : wf h → frame k h h' → x ≠ k → tab_view h' x = tab_view h x.
  Proof using Type.
    intros Hwf Hf Hx. unfold tab_view. rewrite (f_tabs _ _ _ Hf) by done. apply map_ext_in. intros [n a] Hin%elem_of_list_In.
    cbn. f_equal. eapply frame_view; [done|done|]. by eapply Hwf.
  Qed.

  Lemma copy_frame (h : heap) i k : wf h → names_ok h → i ≠ k →
    let h' := (step h (OCopy i k)).1 in
    (∀ x, x ≠ k → tabs h' x = tabs h x) ∧ (∃ l, hcols h' = hcols h ++ l) ∧ grown h h' ∧ wf h' ∧
    (tabs h' k).*1 = (tabs h i).*1.
  Proof using Type.
    intros Hwf Hn Hik h'. pose proof (copy_view ty ps cast np_array eqb h i k Hwf Hn) as Hv.
    assert (Hw : wf h') by (apply (reachable_wf ty ps cast np_array eqb [OCopy i k]); done).
    subst h'. cbn [Heap.step fst] in *. destruct (copy_cols_adds (tabs h i) h [] Hwf) as [[t c g w] _].
    split_and!; [|done|done|done|].
    - intros x Hx. cbn. by rewrite fn_lookup_insert_ne, t.
    - apply (f_equal (map fst)) in Hv. unfold tab_view in Hv. by rewrite !map_map in Hv.
  Qed.

  Lemma set_frame (Hps : 0 < ps) (h : heap) k n vs : wf h → n ∈ (tabs h k).*1 →
    let h' := (step h (OSet k n vs)).1 in
    frame k h h' ∧ (∀ m, m ≠ n → dget (tabs h' k) m = dget (tabs h k) m) ∧
    ∃ b, dget (tabs h' k) n = Some b ∧ (b < length (hcols h'))%nat ∧ col_iter (col_view h' b) = vs.
  Proof using Type.
    intros Hwf Hn h'.
    assert (Hw : wf h') by (apply (reachable_wf ty ps cast np_array eqb [OSet k n vs]); done).
    subst h'. cbn [Heap.step fst new_col] in *.
    pose proof (alloc_data (col_new (tagty ty) ps vs) (dicts h)) as Hd.
    destruct (alloc_grows (col_new (tagty ty) ps vs) (dicts h)) as [q Hq].
    set (r := alloc (dicts h) (col_new (tagty ty) ps vs)) in *. split; [split|split].
    - intros x Hx. cbn. by rewrite fn_lookup_insert_ne.
    - cbn. by rewrite fn_lookup_insert, dset_keys, decide_True.
    - cbn. by eexists.
    - exists q. done.
    - done.
    - intros m Hm. cbn. by rewrite fn_lookup_insert, dget_dset, decide_False.
    - exists (length (hcols h)). split; [cbn; by rewrite fn_lookup_insert, dget_dset, decide_True|].
      split; [cbn; rewrite app_length; cbn; lia|].
      unfold col_iter, col_view, col_at. cbn. rewrite lookup_app_r, Nat.sub_diag by lia. cbn.
      rewrite map_map. etransitivity; [exact (f_equal (@concat A) Hd)|].
      change (col_iter (col_new (tagty ty) ps vs) = vs). unfold col_new. by rewrite col_extend_iter.
  Qed.
  Lemma share_frame (h : heap) i k n a : wf h → n ∈ (tabs h k).*1 → dget (tabs h i) n = Some a →
    let h' := (step h (OSetCol k n i n)).1 in
    frame k h h' ∧ (∀ m, m ≠ n → dget (tabs h' k) m = dget (tabs h k) m) ∧
    dget (tabs h' k) n = Some a ∧ hcols h' = hcols h ∧ dicts h' = dicts h.
  Proof using Type.
    intros Hwf Hn Ha h'.
    assert (Hw : wf h') by (apply (reachable_wf ty ps cast np_array eqb [OSetCol k n i n]); done).
    subst h'. cbn [Heap.step] in *. unfold with_col in *. rewrite Ha in *. cbn [fst] in *. split; [split|split_and!].
    - intros x Hx. cbn. by rewrite fn_lookup_insert_ne.
    - cbn. by rewrite fn_lookup_insert, dset_keys, decide_True.
    - exists []. cbn. by rewrite app_nil_r.
    - exists []. cbn. by rewrite app_nil_r.
    - done.
    - intros m Hm. cbn. by rewrite fn_lookup_insert, dget_dset, decide_False.
    - cbn. by rewrite fn_lookup_insert, dget_dset, decide_True.
    - done.
    - done.
  Qed.

  Definition fits (c : column A T) : Prop :=
    (∀ v, v ∈ col_iter c → cast c v = Ok v) ∧
    (∀ x, head (col_iter c) = Some x → is_missing x = true → cast c none = Ok none).
  Lemma carry_columns_spec (Hps : 0 < ps) i k targets l : i ≠ k → ∀ h : heap, wf h → NoDup l.*1 →
    (∀ n a, (n, a) ∈ l → (a < length (hcols h))%nat ∧ dget (tabs h i) n = Some a ∧ n ∈ (tabs h k).*1 ∧
                         (n ∈ targets → fits (col_view h a))) →
    ∃ h', carry_columns ty none ps cast np_array eqb missing h i k l targets = (h', Ok ()) ∧ frame k h h' ∧
      (∀ n, n ∉ l.*1 → dget (tabs h' k) n = dget (tabs h k) n) ∧
      ∀ n a, (n, a) ∈ l → ∃ b, dget (tabs h' k) n = Some b ∧
        if bool_decide (n ∈ targets) then carried is_missing none (col_iter (col_view h a)) (col_iter (col_view h' b))
        else col_iter (col_view h' b) = col_iter (col_view h a).
  Proof using Type.
    intros Hik. induction l as [|[n a] l IH]; intros h Hwf Hnd Hl; cbn [carry_columns].
    { exists h. split; [done|]. split; [by apply frame_refl|]. split; [done|]. intros n a H. by apply elem_of_nil in H. }
    rewrite fmap_cons in Hnd. cbn [fst] in Hnd. apply list.NoDup_cons in Hnd as [Hn Hnd].
    destruct (Hl n a) as (Ha & Hi & Hk & Hfit); [left|].
    assert (Hgo : ∀ h1 : heap, frame k h h1 → ∀ m b, (m, b) ∈ l →
      (b < length (hcols h1))%nat ∧ dget (tabs h1 i) m = Some b ∧ m ∈ (tabs h1 k).*1 ∧ (m ∈ targets → fits (col_view h1 b))).
    { intros h1 Hf m b Hm. destruct (Hl m b) as (H1 & H2 & H3 & H4); [by right|].
      split_and!.
      - destruct (f_cols _ _ _ Hf) as [q ->]. rewrite app_length. lia.
      - by rewrite (f_tabs _ _ _ Hf).
      - by rewrite (f_names _ _ _ Hf).
      - intros Ht. rewrite (frame_view k h); [by apply H4|done|done|done]. }
    assert (Hend : ∀ h1 b, frame k h h1 → (∀ m, m ≠ n → dget (tabs h1 k) m = dget (tabs h k) m) →
      dget (tabs h1 k) n = Some b → (b < length (hcols h1))%nat →
      (if bool_decide (n ∈ targets) then carried is_missing none (col_iter (col_view h a)) (col_iter (col_view h1 b))
       else col_iter (col_view h1 b) = col_iter (col_view h a)) →
      ∃ h', carry_columns ty none ps cast np_array eqb missing h1 i k l targets = (h', Ok ()) ∧ frame k h h' ∧
      (∀ m, m ∉ ((n, a) :: l).*1 → dget (tabs h' k) m = dget (tabs h k) m) ∧
      ∀ m a', (m, a') ∈ (n, a) :: l → ∃ b, dget (tabs h' k) m = Some b ∧
        if bool_decide (m ∈ targets) then carried is_missing none (col_iter (col_view h a')) (col_iter (col_view h' b))
        else col_iter (col_view h' b) = col_iter (col_view h a')).
    { intros h1 b Hf Hne Hb Hbl Hv. destruct (IH h1 (f_wf _ _ _ Hf) Hnd (Hgo h1 Hf)) as (h' & Hr & Hf' & Hne' & Hin).
      exists h'. split; [exact Hr|]. split; [by eapply frame_trans|]. split.
      - intros m Hm. rewrite fmap_cons, not_elem_of_cons in Hm. cbn [fst] in Hm. destruct Hm. rewrite Hne', Hne by done. done.
      - intros m a' [[= -> ->]|Hm]%elem_of_cons.
        + exists b. split; [by rewrite Hne'|]. rewrite (frame_view k h1 h' b (f_wf _ _ _ Hf) Hf' Hbl). exact Hv.
        + destruct (Hin m a' Hm) as (b' & Hb' & Hv'). exists b'. split; [done|].
          rewrite (frame_view k h h1 a' Hwf Hf) in Hv'; [exact Hv'|]. by eapply (Hl m a'); right. }
    destruct (bool_decide (n ∈ targets)) eqn:Et.
    - assert (Ht : n ∈ targets) by (by apply bool_decide_eq_true_1 in Et).
      rewrite col_getslice_pos, getslice_all by done. cbn [res_bind].
      destruct (carry_loop_spec eqb missing (cast (col_view h a)) (col_iter (col_view h a)) none) as (ys & -> & Hys).
      { apply Hfit, Ht. } { apply Hfit, Ht. }
      destruct (set_frame Hps h k n ys Hwf Hk) as (Hf & Hne & b & Hb & Hbl & Hv).
      apply (Hend _ b Hf Hne Hb Hbl). by rewrite Hv.
    - destruct (share_frame h i k n a Hwf Hk Hi) as (Hf & Hne & Hb & Hc & Hd).
      apply (Hend _ a Hf Hne Hb); [by rewrite Hc|]. apply data_frame. by rewrite Hc.
  Qed.

  Lemma contents_at (h : heap) i n : dget (contents (tab_view h i)) n = (λ a, col_iter (col_view h a)) <$> dget (tabs h i) n.
  Proof using Type.
    unfold contents, tab_view. rewrite map_map. induction (tabs h i) as [|[m a] t IH]; [done|]. cbn [map dget fst snd].
    by case_decide.
  Qed.
  Lemma contents_heads (h : heap) i : (contents (tab_view h i)).*1 = (tabs h i).*1.
  Proof using Type. unfold contents, tab_view. rewrite map_map. induction (tabs h i) as [|[m a] t IH]; [done|]. cbn. by f_equal. Qed.

  Theorem carry_forward_spec (Hps : 0 < ps) (h : heap) i k targets : wf h → names_ok h → i ≠ k →
    (∀ n, n ∈ targets → ∃ a, dget (tabs h i) n = Some a ∧ fits (col_view h a)) →
    ∃ h', carry_forward ty none ps cast np_array eqb missing h i k targets = (h', Ok ()) ∧
      (∀ x, x ≠ k → tab_view h' x = tab_view h x) ∧
      (contents (tab_view h' k)).*1 = (contents (tab_view h i)).*1 ∧
      ∀ n xs, dget (contents (tab_view h i)) n = Some xs →
        ∃ ys, dget (contents (tab_view h' k)) n = Some ys ∧
          if bool_decide (n ∈ targets) then carried is_missing none xs ys else ys = xs.
  Proof using Type.
    intros Hwf Hnames Hik Ht. unfold carry_forward, check_targets.
    assert (forallb (λ n, bool_decide (n ∈ (tabs h i).*1)) targets = true) as ->.
    { apply forallb_forall. intros n Hn%elem_of_list_In. apply bool_decide_eq_true_2. destruct (Ht n Hn) as (a & Ha & _).
      apply HeapProofs.dget_elem in Ha. by apply (elem_of_list_fmap_1 fst) in Ha. }
    destruct (copy_frame h i k Hwf Hnames Hik) as (H1 & [q H2] & H3 & H4 & H5).
    set (h1 := (step h (OCopy i k)).1) in *. cbv zeta.
    assert (Hview : ∀ a, (a < length (hcols h))%nat → col_view h1 a = col_view h a).
    { intros a Ha. apply view_grown; [done|done|]. by rewrite H2, lookup_app_l. }
    rewrite (H1 i Hik).
    destruct (carry_columns_spec Hps i k targets (tabs h i) Hik h1 H4 (Hnames i)) as (h' & Hr & Hf & _ & Hin).
    { intros n a Hna. assert (Ha : (a < length (hcols h))%nat) by (by eapply Hwf).
      assert (Hg : dget (tabs h i) n = Some a) by (by apply dget_Some). split_and!.
      - rewrite H2, app_length. lia.
      - by rewrite (H1 i Hik).
      - rewrite H5. by apply (elem_of_list_fmap_1 fst) in Hna.
      - intros Hn. rewrite Hview by done. destruct (Ht n Hn) as (b & Hb & Hfit). congruence. }
    exists h'. split; [exact Hr|]. split_and!.
    - intros x Hx. rewrite (frame_table k h1 h' x H4 Hf Hx). unfold tab_view. rewrite (H1 x Hx). apply map_ext_in.
      intros [n a] Hna%elem_of_list_In. cbn. f_equal. apply Hview. by eapply Hwf.
    - by rewrite !contents_heads, (f_names _ _ _ Hf).
    - intros n xs. rewrite contents_at. destruct (dget (tabs h i) n) as [a|] eqn:Ea; [|done]. intros [= <-].
      pose proof (HeapProofs.dget_elem _ _ _ Ea) as Hna. destruct (Hin n a Hna) as (b & Hb & Hv).
      exists (col_iter (col_view h' b)). split; [by rewrite contents_at, Hb|]. rewrite Hview in Hv by (by eapply Hwf). exact Hv.
  Qed.
End table.

(** ** numpy's conversions *)
Lemma substring_all s : ∀ n, (String.length s ≤ n)%nat → String.substring 0 n s = s.
Proof.
  induction s as [|c s IH]; intros [|n] H; cbn in *; try done; try lia. rewrite IH; [done|lia].
Qed.
Lemma width_bound xs s : CStr s ∈ xs →
  (String.length s ≤ fold_right (λ y m, match y with CStr s => Nat.max (String.length s) m | _ => m end) 1%nat xs)%nat.
Proof.
  induction xs as [|y xs IH]; intros H; [by apply elem_of_nil in H|]. cbn [fold_right].
  apply elem_of_cons in H as [<-|H]; [lia|]. apply IH in H. destruct y; lia.
Qed.
Lemma store_own xs v : v ∈ xs → np_store (dtype_of xs) v = Ok v.
Proof.
  intros Hv. unfold dtype_of. destruct xs as [|x xs]; [done|]. destruct (forallb _ _) eqn:E; [|done].
  rewrite forallb_forall in E. specialize (E v (proj1 (elem_of_list_In _ _) Hv)). apply bool_decide_eq_true_1 in E.
  destruct (cty x) eqn:Ex; rewrite <- ?Ex in E; destruct v; try done; try (rewrite Ex in E; done).
  cbn [np_store]. rewrite substring_all; [done|]. by apply (width_bound (x :: xs)).
Qed.
Lemma np_cast_own (c : column cell ctype) v : v ∈ col_iter c → np_cast c v = Ok v.
Proof.
  unfold np_cast. destruct c as [|p c]; [intros H; by apply elem_of_nil in H|]. cbn [map unify]. intros Hv.
  destruct (forallb _ _) eqn:E; [|done]. rewrite forallb_forall in E.
  unfold col_iter in Hv. apply elem_of_list_In, in_concat in Hv as (xs & Hxs & Hv).
  apply in_map_iff in Hxs as (q & <- & Hq). apply elem_of_list_In in Hv.
  assert (dtype_of (pdata p) = dtype_of (pdata q)) as ->; [|by apply store_own].
  destruct Hq as [->|Hq]; [done|]. symmetry. eapply bool_decide_eq_true_1, (E (dtype_of (pdata q))).
  apply in_map_iff. by exists q.
Qed.
Lemma fits_cells missing (c : column cell ctype) :
  (∀ x, head (col_iter c) = Some x → is_missing ceqb missing x = false) ∨ unify (map (λ p, dtype_of (pdata p)) c) = DObj →
  fits CNone np_cast ceqb missing c.
Proof.
  intros H. split; [apply np_cast_own|]. intros x Hx Hm. destruct H as [H|H]; [by rewrite H in Hm|].
  unfold np_cast. by rewrite H.
Qed.
