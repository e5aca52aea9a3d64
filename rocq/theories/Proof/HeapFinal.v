(** Isolation of copies; when the values of Table.v are right. *)
From stdpp Require Import functions.
From Verif.Spec Require Export HeapTerms.
From Verif.Model Require Import Heap.
From Verif.Proof Require Import DictLemmas TableBase Retype HeapProofs.
Local Open Scope Z_scope.

Section heap.
  Context {N A T : Type} `{EqDecision N, EqDecision T} (ty : A → T).
  Context (ps : Z) (cast : list (page A T) → A → res A) (np_array : list A → list A) (eqb : A → A → bool).
  Notation heap := (heap N A T).
  Notation step := (step ty ps cast np_array eqb).
  Notation run := (run ty ps cast np_array eqb).
  Notation cols_op := (cols_op ty ps cast np_array eqb).
  Notation col_op := (col_op ty ps cast np_array eqb).

  Lemma wf_empty : wf (N := N) (A := A) (T := T) empty_heap.
  Proof using Type. split; [constructor|]. intros i n a H. by apply elem_of_nil in H. Qed.
  Lemma run_app (h : heap) os os' : run h (os ++ os') = run (run h os) os'.
  Proof using Type. apply fold_left_app. Qed.
  Lemma reachable_wf os (h : heap) : wf h → wf (run h os).
  Proof using Type.
    intros Hwf. apply (run_wf ty ps cast np_array eqb (λ _, ()) os h); [done|by intros x y n m a []|].
    apply list.Forall_forall. intros [] _; done.
  Qed.

  (** column views *)
  Lemma view_grown (h h' : heap) a : wf h → grown h h' → hcols h' !! a = hcols h !! a → col_view h' a = col_view h a.
  Proof using Type.
    intros Hwf [k Hk] E. pose proof (col_at_in h a Hwf) as Hr. unfold col_view, col_at in *. rewrite E, Hk.
    apply map_ext_Forall. eapply list.Forall_impl; [exact Hr|]. intros p Hp. unfold deref. by rewrite lookup_app_l.
  Qed.
  Lemma data_frame (h h' : heap) a : hcols h' !! a = hcols h !! a → col_iter (col_view h' a) = col_iter (col_view h a).
  Proof using Type. intros E. unfold col_view, col_at, col_iter. by rewrite E, !map_map. Qed.

  Local Ltac same := exists []; cbn; by rewrite app_nil_r.
  Lemma step_grown (h : heap) o : wf h → ¬ replaces o → grown h (step h o).1.
  Proof using Type.
    intros Hwf Hr. destruct o as [i n o|i n j m|i n vs|i n j m|i n|i o|i|i k|i j|i k|i ns k|i ns s k]; cbn [Heap.step].
    - unfold with_col. destruct (dget (tabs h i) n) as [a|] eqn:E; [|same]. apply HeapProofs.dget_elem in E.
      apply col_op_grown; [done|by eapply Hwf|]. by destruct o.
    - unfold with_col. destruct (dget (tabs h i) n) as [a|]; [|same].
      destruct (dget (tabs h j) m) as [b|]; same.
    - cbv zeta. destruct (alloc_grows (col_new (tagty ty) ps vs) (dicts h)) as [q Hq]. by exists q.
    - unfold with_col. destruct (dget (tabs h j) m); same.
    - unfold with_col. destruct (dget (tabs h i) n); same.
    - apply cols_op_writes; [done| |done]. intros a [n' Hn]%in_snd. by eapply Hwf.
    - same.
    - destruct (0 <? k); [|same]. apply cols_op_writes; [done| |done]. intros a [n' Hn]%in_snd. by eapply Hwf.
    - destruct (negb _); [same|]. destruct (negb _); [same|]. by apply add_cols_writes.
    - cbv zeta. destruct (copy_cols_adds (tabs h i) h [] Hwf) as [H1 _]. apply H1.
    - destruct (select_cols _ _ _); same.
    - destruct (slice_cols_adds ty ps (tabs h i) ns s h [] Hwf) as [H1 _].
      destruct (slice_cols _ _ _ _ _ _ _) as [h1 [t|e]]; apply H1.
  Qed.

  (** ** Isolation *)
  Section sides.
    Context {G : Type} (g : nat → G).
    Theorem isolated (h : heap) os o x : wf h → apart g h → Forall (respects g) os → respects g o →
      g x ≠ g (target o) →
      contents (tab_view (step (run h os) o).1 x) = contents (tab_view (run h os) x).
    Proof using Type.
      intros Hwf Ha Hos Ho Hx. destruct (run_wf ty ps cast np_array eqb g os h Hwf Ha Hos) as [Hwf' Ha'].
      destruct (effect_iso g _ _ _ x (step_effect ty ps cast np_array eqb g _ o Hwf' Ho) Hwf' Ha' Hx) as [Ht Hc].
      unfold contents, tab_view. rewrite Ht, !map_map. apply map_ext_in. intros [n a] Hin%elem_of_list_In. cbn. f_equal.
      apply data_frame. by eapply Hc.
    Qed.
    Theorem isolated_types (h : heap) os o x : wf h → apart g h → Forall (respects g) os → respects g o →
      g x ≠ g (target o) → ¬ replaces o →
      tab_view (step (run h os) o).1 x = tab_view (run h os) x.
    Proof using Type.
      intros Hwf Ha Hos Ho Hx Hr. destruct (run_wf ty ps cast np_array eqb g os h Hwf Ha Hos) as [Hwf' Ha'].
      destruct (effect_iso g _ _ _ x (step_effect ty ps cast np_array eqb g _ o Hwf' Ho) Hwf' Ha' Hx) as [Ht Hc].
      unfold tab_view. rewrite Ht. apply map_ext_in. intros [n a] Hin%elem_of_list_In. cbn. f_equal.
      apply view_grown; [done|by apply step_grown|]. by eapply Hc.
    Qed.
  End sides.

  Definition names_ok (h : heap) : Prop := ∀ i, NoDup (tabs h i).*1.
  Lemma select_names (t : list (N * nat)) ns : ∀ acc t', NoDup acc.*1 → select_cols t ns acc = Ok t' → NoDup t'.*1.
  Proof using Type.
    induction ns as [|n ns IH]; intros acc t' Hn; cbn [select_cols]; [by intros [= <-]|].
    destruct (dget t n); [|done]. apply IH. by apply dset_NoDup.
  Qed.
  Lemma slice_names (t : list (N * nat)) ns s : ∀ (h : heap) acc t', NoDup acc.*1 →
    (slice_cols ty ps h t ns s acc).2 = Ok t' → NoDup t'.*1.
  Proof using Type.
    induction ns as [|n ns IH]; intros h acc t' Hn; cbn [slice_cols]; [by intros [= <-]|].
    destruct (dget t n); [|done]. destruct (sub_column _ _ _ _); [|done]. apply IH. by apply dset_NoDup.
  Qed.
  Lemma copy_names src : ∀ (h : heap) dst, NoDup dst.*1 → NoDup (copy_cols h src dst).2.*1.
  Proof using Type.
    induction src as [|[n a] src IH]; intros h dst Hn; cbn [copy_cols]; [done|]. apply IH. by apply dset_NoDup.
  Qed.
  Lemma set_tab_names (h : heap) i t : names_ok h → NoDup t.*1 → names_ok (set_tab h i t).
  Proof using Type.
    intros Hn Ht x. cbn. destruct (decide (i = x)) as [->|]; [by rewrite fn_lookup_insert|by rewrite fn_lookup_insert_ne].
  Qed.
  Lemma names_tabs (h h' : heap) : tabs h' = tabs h → names_ok h → names_ok h'.
  Proof using Type. intros E Hn i. rewrite E. apply Hn. Qed.
  Lemma step_names (h : heap) o : wf h → names_ok h → names_ok (step h o).1.
  Proof using Type.
    intros Hwf Hn. destruct o as [i n o|i n j m|i n vs|i n j m|i n|i o|i|i k|i j|i k|i ns k|i ns s k]; cbn [Heap.step].
    - unfold with_col. destruct (dget (tabs h i) n) as [a|] eqn:E; [|done]. apply HeapProofs.dget_elem in E.
      eapply names_tabs; [|exact Hn]. eapply w_tabs. apply col_op_writes; [done|by eapply Hwf].
    - unfold with_col. destruct (dget (tabs h i) n) as [a|]; [|done]. by destruct (dget (tabs h j) m) as [b|].
    - cbv zeta. cbn [fst]. apply set_tab_names; [done|]. by apply dset_NoDup.
    - unfold with_col. destruct (dget (tabs h j) m); [|done]. apply set_tab_names; [done|]. by apply dset_NoDup.
    - unfold with_col. destruct (dget (tabs h i) n); [|done]. apply set_tab_names; [done|]. by apply ddel_NoDup.
    - eapply names_tabs; [|exact Hn]. eapply w_tabs. apply cols_op_writes; [done|]. intros a [n' H']%in_snd. by eapply Hwf.
    - apply set_tab_names; [done|constructor].
    - destruct (0 <? k); [|done]. eapply names_tabs; [|exact Hn]. eapply w_tabs. apply cols_op_writes; [done|].
      intros a [n' H']%in_snd. by eapply Hwf.
    - destruct (negb _); [done|]. destruct (negb _); [done|]. eapply names_tabs; [|exact Hn]. eapply w_tabs.
      by apply add_cols_writes.
    - cbv zeta. cbn [fst]. destruct (copy_cols_adds (tabs h i) h [] Hwf) as [H1 _]. apply set_tab_names.
      + eapply names_tabs; [|exact Hn]. apply H1.
      + apply copy_names. constructor.
    - destruct (select_cols _ _ _) eqn:E; [|done]. apply set_tab_names; [done|]. eapply select_names; [|exact E]. constructor.
    - destruct (slice_cols_adds ty ps (tabs h i) ns s h [] Hwf) as [H1 _].
      pose proof (slice_names (tabs h i) ns s h []) as H2.
      destruct (slice_cols _ _ _ _ _ _ _) as [h1 [t|e]]; cbn [fst snd] in *.
      + apply set_tab_names; [eapply names_tabs; [|exact Hn]; apply H1|]. apply H2; [constructor|done].
      + eapply names_tabs; [|exact Hn]. apply H1.
  Qed.
  Lemma reachable_names os : ∀ h : heap, wf h → names_ok h → names_ok (run h os).
  Proof using Type.
    induction os as [|o os IH]; intros h Hwf Hn; [done|]. cbn [Heap.run fold_left].
    apply IH; [apply (reachable_wf [o]); done|by apply step_names].
  Qed.

  (** ** Copying *)
  Lemma copy_cols_view src : ∀ (h : heap) dst, wf h → NoDup src.*1 → (∀ n, n ∈ src.*1 → n ∉ dst.*1) →
    (∀ n a, (n, a) ∈ src → (a < length (hcols h))%nat) → (∀ n a, (n, a) ∈ dst → (a < length (hcols h))%nat) →
    map (λ c, (c.1, col_view (copy_cols h src dst).1 c.2)) (copy_cols h src dst).2 =
    map (λ c, (c.1, col_view h c.2)) dst ++ map (λ c, (c.1, col_view h c.2)) src.
  Proof using Type.
    induction src as [|[n a] src IH]; intros h dst Hwf Hnd Hd Hs Ht; cbn [copy_cols]; [by rewrite app_nil_r|].
    apply list.NoDup_cons in Hnd as [Hn Hnd]. cbn in Hn.
    assert (Ha : adds h (new_col h (dicts h) (col_at h a)).1).
    { rewrite <- (app_nil_r (dicts h)) at 1. apply new_col_adds; [done|]. rewrite app_nil_r. by apply col_at_in. }
    assert (Hv : ∀ b, (b < length (hcols h))%nat → col_view (new_col h (dicts h) (col_at h a)).1 b = col_view h b).
    { intros b Hb. apply view_grown; [done|apply Ha|]. destruct (a_cols _ _ Ha) as [k ->]. by rewrite lookup_app_l. }
    rewrite IH.
    - rewrite dset_fresh by (apply Hd; by left). rewrite map_app, <- app_assoc. f_equal.
      + apply map_ext_in. intros [m b] Hb%elem_of_list_In. cbn. f_equal. apply Hv. by eapply Ht.
      + cbn [map app fst snd]. f_equal.
        * f_equal. assert (Hl : hcols (new_col h (dicts h) (col_at h a)).1 !! length (hcols h) = Some (col_at h a)).
          { cbn [new_col fst hcols]. by rewrite lookup_app_r, Nat.sub_diag by done. }
          unfold col_view. f_equal. change (default [] (hcols (new_col h (dicts h) (col_at h a)).1 !! length (hcols h)) = col_at h a). by rewrite Hl.
        * apply map_ext_in. intros [m b] Hb%elem_of_list_In. cbn. f_equal. apply Hv. eapply Hs. by right.
    - apply Ha.
    - done.
    - intros m Hm. rewrite dset_fresh by (apply Hd; by left). rewrite fmap_app, not_elem_of_app. split; [apply Hd; by right|].
      cbn. rewrite elem_of_list_singleton. by intros ->.
    - intros m b Hb. rewrite new_col_len. apply Nat.lt_lt_succ_r. eapply Hs. by right.
    - intros m b Hb%elem_of_dset. rewrite new_col_len. destruct Hb as [Hb|Hb]; [apply Ht in Hb; lia|]. cbn in Hb. subst b. lia.
  Qed.
  Theorem copy_view (h : heap) i k : wf h → names_ok h → tab_view (step h (OCopy i k)).1 k = tab_view h i.
  Proof using Type.
    intros Hwf Hn. cbn [Heap.step]. cbv zeta. cbn [fst].
    pose proof (copy_cols_view (tabs h i) h [] Hwf (Hn i)) as H. cbn [map app] in H.
    unfold tab_view at 1. cbn [tabs set_tab]. rewrite fn_lookup_insert. etransitivity; [|apply H].
    - done.
    - intros n _. apply not_elem_of_nil.
    - intros n a. apply Hwf.
    - intros n a Ha. by apply elem_of_nil in Ha.
  Qed.
  (** the copy is apart from every other table *)
  Theorem copy_apart (h : heap) i k : wf h → apart (λ x, bool_decide (x = k)) (step h (OCopy i k)).1.
  Proof using Type.
    intros Hwf. cbn [Heap.step]. cbv zeta. cbn [fst]. destruct (copy_cols_adds (tabs h i) h [] Hwf) as [H1 H2].
    set (t := (copy_cols h (tabs h i) []).2) in *. set (h1 := (copy_cols h (tabs h i) []).1) in *.
    assert (H : ∀ y n m a, y ≠ k → (n, a) ∈ tabs (set_tab h1 k t) k → (m, a) ∈ tabs (set_tab h1 k t) y → False).
    { intros y n m a Hy. cbn. rewrite fn_lookup_insert, fn_lookup_insert_ne by done. rewrite (a_tabs _ _ H1).
      intros [Hq|Hq]%H2 Ha; [by apply elem_of_nil in Hq|]. destruct Hwf as [_ Hwf]. apply Hwf in Ha. cbn in Hq. lia. }
    intros x y n m a Hg Hx Hy. destruct (decide (x = k)) as [->|Hxk]; destruct (decide (y = k)) as [->|Hyk].
    - done.
    - by eapply H.
    - by eapply (H x).
    - by rewrite !bool_decide_eq_false_2 in Hg.
  Qed.

  (** so is a table of slices *)
  Theorem slice_apart (h : heap) i ns s k : wf h → (step h (OSlice i ns s k)).2 = Ok () →
    apart (λ x, bool_decide (x = k)) (step h (OSlice i ns s k)).1.
  Proof using Type.
    intros Hwf. cbn [Heap.step]. destruct (slice_cols_adds ty ps (tabs h i) ns s h [] Hwf) as [H1 H2].
    destruct (slice_cols _ _ _ _ _ _ _) as [h1 [t|e]]; cbn [fst snd] in *; [|done]. intros _. specialize (H2 t eq_refl).
    assert (H : ∀ y n m a, y ≠ k → (n, a) ∈ tabs (set_tab h1 k t) k → (m, a) ∈ tabs (set_tab h1 k t) y → False).
    { intros y n m a Hy. cbn. rewrite fn_lookup_insert, fn_lookup_insert_ne by done. rewrite (a_tabs _ _ H1).
      intros [Hq|Hq]%H2 Ha; [by apply elem_of_nil in Hq|]. destruct Hwf as [_ Hwf]. apply Hwf in Ha. cbn in Hq. lia. }
    intros x y n m a Hg Hx Hy. destruct (decide (x = k)) as [->|Hxk]; destruct (decide (y = k)) as [->|Hyk].
    - done.
    - by eapply H.
    - by eapply (H x).
    - by rewrite !bool_decide_eq_false_2 in Hg.
  Qed.

  (** ** Tables whose columns are different objects *)
  Lemma cols_op_view o (F : column A T → column A T) l : (∀ c, sop_run ps eqb ty cast o c = Ok (F c)) →
    ∀ h : heap, wf h → NoDup l → (∀ a, a ∈ l → (a < length (hcols h))%nat) →
    (cols_op h l (Simple o)).2 = Ok () ∧ ∀ a, a ∈ l → col_view (cols_op h l (Simple o)).1 a = F (col_view h a).
  Proof using Type.
    intros HF. induction l as [|a l IH]; intros h Hwf Hnd Hl; cbn [Heap.cols_op].
    - split; [done|]. intros a Ha. by apply elem_of_nil in Ha.
    - apply list.NoDup_cons in Hnd as [Ha Hnd]. assert (Hal : (a < length (hcols h))%nat) by (apply Hl; left).
      destruct (simple_spec ty ps cast np_array eqb h a o Hwf Hal) as (Hw & Hg & Hs). rewrite HF in Hs. destruct Hs as [Hok Hv].
      destruct (col_op h a (Simple o)) as [h1 r]. cbn [fst snd] in *. subst r. cbv iota.
      assert (Hl1 : ∀ b, b ∈ l → (b < length (hcols h1))%nat).
      { intros b Hb. rewrite (w_len _ _ _ Hw). apply Hl. by right. }
      destruct (IH h1 (w_wf _ _ _ Hw) Hnd Hl1) as [Hok Hv1]. split; [done|].
      intros b [->|Hb]%elem_of_cons.
      + rewrite <- Hv. destruct (cols_op_writes ty ps cast np_array eqb l (Simple o) h1 (w_wf _ _ _ Hw) Hl1) as [Hw1 Hg1].
        apply view_grown; [apply Hw|by apply Hg1|]. by apply (w_frame _ _ _ Hw1).
      + rewrite Hv1 by done. f_equal. apply view_grown; [done|done|]. apply (w_frame _ _ _ Hw).
        rewrite elem_of_list_singleton. by intros ->.
  Qed.
  Theorem imul_view (h : heap) i k : wf h → NoDup (tabs h i).*2 → 0 < k →
    (step h (OImul i k)).2 = Ok () ∧
    tab_view (step h (OImul i k)).1 i = map (λ c, (c.1, concat (replicate (Z.to_nat k) c.2))) (tab_view h i).
  Proof using Type.
    intros Hwf Hnd Hk. cbn [Heap.step]. rewrite (proj2 (Z.ltb_lt 0 k)) by done.
    assert (Hl : ∀ a, a ∈ (tabs h i).*2 → (a < length (hcols h))%nat) by (intros a [n Hn]%in_snd; by eapply Hwf).
    destruct (cols_op_view (Imul k) (λ c, concat (replicate (Z.to_nat k) c)) (tabs h i).*2) with (h := h) as [Hok Hv]; try done.
    { intros c. cbn. unfold col_imul. by rewrite (proj2 (Z.ltb_lt 0 k)). }
    split; [done|]. destruct (cols_op_writes ty ps cast np_array eqb _ (Simple (Imul k)) h Hwf Hl) as [Hw _].
    unfold tab_view. rewrite (w_tabs _ _ _ Hw), map_map. apply map_ext_in. intros [n a] Hin%elem_of_list_In. cbn. f_equal.
    apply Hv. apply elem_of_list_fmap. by exists (n, a).
  Qed.

  Lemma add_cols_view l j : ∀ h : heap, wf h → NoDup l.*2 → (∀ n a, (n, a) ∈ l → (a < length (hcols h))%nat) →
    (∀ n a, (n, a) ∈ l → ∃ b, dget (tabs h j) n = Some b ∧ (b = a ∨ b ∉ l.*2)) →
    (add_cols h l j).2 = Ok () ∧
    ∀ n a b, (n, a) ∈ l → dget (tabs h j) n = Some b → col_view (add_cols h l j).1 a = col_view h a ++ col_view h b.
  Proof using Type.
    induction l as [|[n a] l IH]; intros h Hwf Hnd Hl Hj; cbn [add_cols].
    - split; [done|]. intros n a b H. by apply elem_of_nil in H.
    - destruct (Hj n a) as (b & Hb & Hba); [left|]. rewrite Hb. rewrite fmap_cons in Hnd. apply list.NoDup_cons in Hnd as [Ha Hnd].
      cbn [snd] in Ha. pose proof (col_add_writes h a b Hwf) as Hw.
      assert (Hv : ∀ c, c ≠ a → col_view (col_add h a b) c = col_view h c).
      { intros c Hc. apply view_grown; [done|exists []; cbn; by rewrite app_nil_r|]. apply (w_frame _ _ _ Hw). by rewrite elem_of_list_singleton. }
      destruct (IH (col_add h a b)) as [Hok H1].
      + apply Hw.
      + done.
      + intros m c Hc. rewrite (w_len _ _ _ Hw). eapply Hl. by right.
      + intros m c Hc. destruct (Hj m c) as (d & Hd & Hdc); [by right|]. exists d. split; [done|].
        destruct Hdc as [->|Hdc]; [by left|]. right. rewrite fmap_cons in Hdc. by apply not_elem_of_cons in Hdc as [_ ?].
      + split; [done|]. intros m c d [[= -> ->]|Hc]%elem_of_cons Hd.
        * rewrite Hb in Hd. injection Hd as <-.
          transitivity (col_view (col_add h a b) a).
          { destruct (add_cols_writes l j (col_add h a b) (w_wf _ _ _ Hw)) as [Hw1 Hg1].
            apply view_grown; [apply Hw|done|]. by apply (w_frame _ _ _ Hw1). }
          unfold col_add. rewrite view_set_col by (eapply Hl; left). unfold col_view. by rewrite map_app.
        * rewrite (H1 m c d Hc Hd). destruct (Hj m c) as (d' & Hd' & Hdc); [by right|]. rewrite Hd in Hd'. injection Hd' as <-.
          assert (c ≠ a). { intros ->. apply Ha. apply elem_of_list_fmap. by exists (m, a). }
          rewrite !Hv; [done| |done]. destruct Hdc as [->|Hdc]; [done|]. intros ->. apply Hdc. by left.
  Qed.
  Theorem iadd_view (h : heap) i j : wf h → names_ok h → NoDup (tabs h i).*2 →
    (i = j ∨ ∀ a, a ∈ (tabs h i).*2 → a ∉ (tabs h j).*2) →
    match tbl_iadd (tab_view h i) (tab_view h j) with
    | Err e => step h (OIadd i j) = (h, Err e)
    | Ok t => (step h (OIadd i j)).2 = Ok () ∧ tab_view (step h (OIadd i j)).1 i = t
    end.
  Proof using Type.
    intros Hwf Hn Hnd Hij. cbn [Heap.step]. unfold tbl_iadd.
    assert (Enames : ∀ x, (tab_view h x).*1 = (tabs h x).*1).
    { intros x. unfold tab_view. rewrite <- !list_fmap_compose. done. }
    rewrite !Enames.
    destruct (forallb (λ n, bool_decide (n ∈ (tabs h j).*1)) (tabs h i).*1) eqn:E1; cbn [negb]; [|done].
    destruct (forallb (λ n, bool_decide (n ∈ (tabs h i).*1)) (tabs h j).*1) eqn:E2; cbn [negb]; [|done].
    assert (Hsub : ∀ n a, (n, a) ∈ tabs h i → ∃ b, dget (tabs h j) n = Some b ∧ (b = a ∨ b ∉ (tabs h i).*2)).
    { intros n a Ha. rewrite forallb_forall in E1.
      assert (Hnj : n ∈ (tabs h j).*1).
      { apply (bool_decide_unpack _). apply Is_true_true. apply E1. apply elem_of_list_In, elem_of_list_fmap. by exists (n, a). }
      destruct (dget_in _ _ Hnj) as [b Hb]. exists b. split; [done|]. destruct Hij as [<-|Hij].
      - left. apply (dget_Some _ _ _ (Hn i)) in Ha. congruence.
      - right. intros Hb2. eapply Hij; [exact Hb2|]. apply HeapProofs.dget_elem in Hb. apply elem_of_list_fmap. by exists (n, b). }
    destruct (add_cols_view (tabs h i) j h Hwf Hnd) as [Hok Hv]; [intros n a; apply Hwf|done|].
    split; [done|]. destruct (add_cols_writes (tabs h i) j h Hwf) as [Hw _].
    unfold tab_view. rewrite (w_tabs _ _ _ Hw), map_map. apply map_ext_in. intros [n a] Hin%elem_of_list_In. cbn [fst snd]. f_equal.
    destruct (Hsub n a Hin) as (b & Hb & _). rewrite (Hv n a b Hin Hb). f_equal.
    rewrite (dget_map (col_view h)). by rewrite Hb.
  Qed.

  (** ** Programs *)
  Notation empty := (empty_heap (N := N) (A := A) (T := T)).
  Lemma program_wf os : wf (run empty os).
  Proof using Type. apply reachable_wf, wf_empty. Qed.
  Lemma program_names os : names_ok (run empty os).
  Proof using Type. apply reachable_names; [apply wf_empty|]. intros i. constructor. Qed.
  Definition sides (k x : nat) : bool := bool_decide (x = k).
  Theorem copy_contents os0 i k :
    let h := (step (run empty os0) (OCopy i k)).1 in
    tab_view h k = tab_view (run empty os0) i ∧
    ∀ os o x, Forall (respects (sides k)) os → respects (sides k) o → sides k x ≠ sides k (target o) →
      contents (tab_view (step (run h os) o).1 x) = contents (tab_view (run h os) x) ∧
      (¬ replaces o → tab_view (step (run h os) o).1 x = tab_view (run h os) x).
  Proof using Type.
    intros h. pose proof (program_wf os0) as Hwf. split; [apply copy_view; [done|apply program_names]|].
    assert (Hwf' : wf h) by (apply (reachable_wf [OCopy i k]); done).
    pose proof (copy_apart (run empty os0) i k Hwf) as Ha. intros os o x Hos Ho Hx. split.
    - by apply (isolated (sides k)).
    - intros Hr. by apply (isolated_types (sides k)).
  Qed.
  Theorem slice_contents os0 i ns s k :
    let h := (step (run empty os0) (OSlice i ns s k)).1 in
    (step (run empty os0) (OSlice i ns s k)).2 = Ok () →
    ∀ os o x, Forall (respects (sides k)) os → respects (sides k) o → sides k x ≠ sides k (target o) →
      contents (tab_view (step (run h os) o).1 x) = contents (tab_view (run h os) x).
  Proof using Type.
    intros h Hok os o x Hos Ho Hx. pose proof (program_wf os0) as Hwf.
    assert (Hwf' : wf h) by (apply (reachable_wf [OSlice i ns s k]); done).
    apply (isolated (sides k)); try done. by apply slice_apart.
  Qed.
  Theorem program_imul os i k : NoDup (tabs (run empty os) i).*2 → 0 < k →
    tab_view (step (run empty os) (OImul i k)).1 i =
    map (λ c, (c.1, concat (replicate (Z.to_nat k) c.2))) (tab_view (run empty os) i).
  Proof using Type. intros Hnd Hk. by apply imul_view; [apply program_wf|..]. Qed.
  Theorem program_iadd os i j : NoDup (tabs (run empty os) i).*2 →
    (i = j ∨ ∀ a, a ∈ (tabs (run empty os) i).*2 → a ∉ (tabs (run empty os) j).*2) →
    match tbl_iadd (tab_view (run empty os) i) (tab_view (run empty os) j) with
    | Err e => step (run empty os) (OIadd i j) = (run empty os, Err e)
    | Ok t => (step (run empty os) (OIadd i j)).2 = Ok () ∧ tab_view (step (run empty os) (OIadd i j)).1 i = t
    end.
  Proof using Type. intros Hnd Hij. apply iadd_view; [apply program_wf|apply program_names|done|done]. Qed.
  (** a column which is bound to one name *)
  Theorem program_col os i n a o : dget (tabs (run empty os) i) n = Some a →
    (∀ m, (m, a) ∈ tabs (run empty os) i → m = n) →
    match sop_run ps eqb ty cast o (col_view (run empty os) a) with
    | Err e => step (run empty os) (OCol i n (Simple o)) = (run empty os, Err e)
    | Ok c => (step (run empty os) (OCol i n (Simple o))).2 = Ok () ∧
              tab_view (step (run empty os) (OCol i n (Simple o))).1 i = dset (tab_view (run empty os) i) n c
    end.
  Proof using Type.
    intros Ha Hu. pose proof (program_wf os) as Hwf. pose proof (program_names os i) as Hn. set (h := run empty os) in *.
    cbn [Heap.step]. unfold with_col. rewrite Ha. pose proof (HeapProofs.dget_elem _ _ _ Ha) as Hin.
    destruct (simple_spec ty ps cast np_array eqb h a o Hwf) as (Hw & Hg & Hs); [by eapply Hwf|].
    destruct (sop_run _ _ _ _ _ _) as [c|e]; [|done]. destruct Hs as [Hok Hv]. split; [done|].
    unfold tab_view. rewrite (w_tabs _ _ _ Hw). set (h' := (col_op h a (Simple o)).1) in *.
    assert (Hrest : ∀ l, n ∉ l.*1 → (∀ q, q ∈ l → q ∈ tabs h i) →
      map (λ c, (c.1, col_view h' c.2)) l = map (λ c, (c.1, col_view h c.2)) l).
    { intros l Hl Hsub. apply map_ext_in. intros [m b] Hb%elem_of_list_In. cbn. f_equal.
      apply view_grown; [done|done|]. apply (w_frame _ _ _ Hw). rewrite elem_of_list_singleton. intros ->.
      rewrite (Hu m) in Hb by (by apply Hsub). apply Hl. apply elem_of_list_fmap. by exists (n, a). }
    assert (H : ∀ l, NoDup l.*1 → dget l n = Some a → (∀ q, q ∈ l → q ∈ tabs h i) →
      map (λ c, (c.1, col_view h' c.2)) l = dset (map (λ c, (c.1, col_view h c.2)) l) n c).
    { clear Hin Ha. induction l as [|[m b] l IH]; intros Hnd Hd Hsub; [done|]. rewrite fmap_cons in Hnd.
      apply list.NoDup_cons in Hnd as [Hm Hnd]. cbn [fst] in Hm. cbn [dget] in Hd. cbn [map dset fst snd].
      destruct (decide (n = m)) as [<-|Hne].
      - injection Hd as ->. rewrite Hv. f_equal. apply Hrest; [done|]. intros q Hq. apply Hsub. by right.
      - rewrite (IH Hnd Hd) by (intros q Hq; apply Hsub; by right). f_equal. f_equal.
        apply view_grown; [done|done|]. apply (w_frame _ _ _ Hw). rewrite elem_of_list_singleton. intros ->.
        apply Hne. symmetry. apply Hu. apply Hsub. by left. }
    apply H; [done|done|]. done.
  Qed.
End heap.
