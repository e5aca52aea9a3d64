(** Tables that share columns, pages and dicts. *)
From stdpp Require Import functions.
From Verif.Spec Require Export HeapTerms.
From Verif.Model Require Import Heap.
From Verif.Proof Require Import DictLemmas Retype.
Local Open Scope Z_scope.

Section heap.
  Context {N A T : Type} `{EqDecision N, EqDecision T} (ty : A → T).
  Context (ps : Z) (cast : list (page A T) → A → res A) (np_array : list A → list A) (eqb : A → A → bool).
  Notation heap := (heap N A T).
  Notation tagty := (tagty (A := A) ty).

  (** ** New dicts *)
  Lemma untag_retag (d : dict T) : untag (retag d) = d.
  Proof using Type. unfold untag, retag. induction d as [|[t n] d IH]; [done|]. cbn. by rewrite IH. Qed.
  Lemma dset_retag (d : dict T) t n : dset (retag d) (inr t) n = retag (dset d t n).
  Proof using Type.
    induction d as [|[u m] d IH]; [done|]. cbn [retag map dset fst snd].
    destruct (decide (t = u)) as [->|Hne]; [by rewrite decide_True|]. rewrite decide_False by congruence.
    cbn. f_equal. exact IH.
  Qed.
  Lemma dget_retag (d : dict T) t : dget (retag d) (inr t) = dget d t.
  Proof using Type.
    induction d as [|[u m] d IH]; [done|]. cbn [retag map dget fst snd].
    destruct (decide (t = u)) as [->|Hne]; [by rewrite decide_True|]. rewrite decide_False by congruence. exact IH.
  Qed.
  Lemma type_counts_tag xs : type_counts tagty xs = retag (type_counts ty xs).
  Proof using Type.
    unfold type_counts. change (@nil ((nat + T) * Z)) with (retag (T := T) []).
    generalize (@nil (T * Z)). induction xs as [|x xs IH]; intros d; [done|]. cbn [fold_left].
    change (tagty x) with (inr (A := nat) (ty x)). unfold dget_or. rewrite dget_retag, dset_retag. apply IH.
  Qed.

  Lemma resolve_retag (ds : list (dict T)) (d : dict T) : resolve_types ds (retag d) = d.
  Proof using Type. destruct d as [|[t n] d]; [done|]. apply (untag_retag ((t, n) :: d)). Qed.
  Lemma resolve_rt ds (p : page A (nat + T)) : resolve ds p = rt (resolve_types ds) p.
  Proof using Type. reflexivity. Qed.
  Lemma resolve_tag ds (p : hpage A) : resolve ds (tag (T := T) p) = deref ds p.
  Proof using Type. done. Qed.
  Lemma map_resolve_tag ds (c : list (hpage A)) : map (resolve ds) (map (tag (T := T)) c) = map (deref ds) c.
  Proof using Type. rewrite map_map. done. Qed.

  (** the reference is one of the first [n] *)
  Definition page_in (n : nat) (p : page A (nat + T)) : Prop :=
    match ptypes p with (inl a, _) :: _ => (a < n)%nat | _ => True end.
  Definition clip (n : nat) (d : list ((nat + T) * Z)) : list ((nat + T) * Z) :=
    match d with (inl a, z) :: _ => if (a <? n)%nat then d else [] | _ => d end.
  Lemma clip_ok n xs : clip n (type_counts tagty xs) = type_counts tagty xs.
  Proof using Type. rewrite type_counts_tag. by destruct (type_counts ty xs) as [|[] ]. Qed.
  Lemma clip_in n p : page_in n (rt (clip n) p).
  Proof using Type.
    destruct p as [d [|[[a|t] z] l]]; unfold page_in; cbn [rt ptypes clip]; [done| |done].
    destruct (Nat.ltb_spec a n); done.
  Qed.
  Lemma clip_id n p : page_in n p → rt (clip n) p = p.
  Proof using Type.
    destruct p as [d [|[[a|t] z] l]]; unfold page_in; cbn [rt ptypes clip]; [done| |done]. intros H. unfold rt. cbn [clip ptypes pdata].
    apply Nat.ltb_lt in H. by rewrite H.
  Qed.
  Lemma clip_ids n c : Forall (page_in n) c → map (rt (clip n)) c = c.
  Proof using Type. induction 1 as [|p c H _ IH]; [done|]. cbn. by rewrite clip_id, IH. Qed.
  Lemma clips_in n c : Forall (page_in n) (map (rt (clip n)) c).
  Proof using Type. induction c; constructor; [apply clip_in|done]. Qed.
  Lemma tag_in n (p : hpage A) : page_in n (tag p) ↔ (hdict p < n)%nat.
  Proof using Type. done. Qed.
  Lemma tags_in n (c : list (hpage A)) : Forall (λ p, (hdict p < n)%nat) c → Forall (page_in n) (map tag c).
  Proof using Type. induction 1; by constructor. Qed.

  Lemma alloc_grows (c : column A (nat + T)) : ∀ ds, ∃ k, (alloc ds c).1 = ds ++ k.
  Proof using Type.
    induction c as [|p c IH]; intros ds; [exists []; by rewrite app_nil_r|]. cbn [alloc].
    destruct (ptypes p) as [|[[a|t] z] l]; cbn [fst]; [|apply IH|].
    - destruct (IH (ds ++ [untag []])) as [k ->]. rewrite <- app_assoc. by eexists.
    - destruct (IH (ds ++ [untag ((inr t, z) :: l)])) as [k ->]. rewrite <- app_assoc. by eexists.
  Qed.
  Lemma alloc_data (c : column A (nat + T)) : ∀ ds, map hdata (alloc ds c).2 = map pdata c.
  Proof using Type.
    induction c as [|p c IH]; intros ds; [done|]. cbn [alloc].
    destruct (ptypes p) as [|[[a|t] z] l]; cbn [snd map]; f_equal; apply IH.
  Qed.
  Lemma page_in_le n m p : (n ≤ m)%nat → page_in n p → page_in m p.
  Proof using Type. unfold page_in. repeat case_match; try done. intros. lia. Qed.
  Lemma resolve_app ds k p : page_in (length ds) p → resolve (ds ++ k) p = resolve ds p.
  Proof using Type.
    unfold page_in, resolve, resolve_types. destruct (ptypes p) as [|[[a|t] z] l]; [done| |done]. intros H. by rewrite lookup_app_l.
  Qed.
  Lemma alloc_spec (c : column A (nat + T)) : ∀ ds, Forall (page_in (length ds)) c →
    map (deref (alloc ds c).1) (alloc ds c).2 = map (resolve ds) c ∧
    Forall (λ p, (hdict p < length (alloc ds c).1)%nat) (alloc ds c).2.
  Proof using Type.
    induction c as [|p c IH]; intros ds Hc; [split; [done|constructor]|]. apply list.Forall_cons in Hc as [Hp Hc].
    assert (Hnew : ∀ d, match d with (inl _, _) :: _ => False | _ => True end → ptypes p = d →
      map (deref (alloc (ds ++ [untag d]) c).1) (MkHpage (pdata p) (length ds) :: (alloc (ds ++ [untag d]) c).2) =
        map (resolve ds) (p :: c) ∧
      Forall (λ q, (hdict q < length (alloc (ds ++ [untag d]) c).1)%nat) (MkHpage (pdata p) (length ds) :: (alloc (ds ++ [untag d]) c).2)).
    { intros d Hd E. destruct (IH (ds ++ [untag d])) as [H1 H2].
      { eapply list.Forall_impl; [exact Hc|]. intros q Hq. eapply page_in_le; [|exact Hq]. rewrite app_length. lia. }
      destruct (alloc_grows c (ds ++ [untag d])) as [k Hk]. split.
      - cbn [map]. rewrite H1. f_equal.
        + unfold deref, resolve, resolve_types. cbn [hdict hdata]. rewrite Hk, <- app_assoc, (lookup_app_r ds _ (length ds)), Nat.sub_diag by done. cbn [app lookup list_lookup default from_option id]. f_equal.
          rewrite E. by destruct d as [|[[] ] ].
        + apply map_ext_Forall. eapply list.Forall_impl; [exact Hc|]. intros q Hq. by apply resolve_app.
      - constructor; [|done]. cbn. rewrite Hk, !app_length. cbn. lia. }
    cbn [alloc]. destruct (ptypes p) as [|[[a|t] z] l] eqn:E; cbn [fst snd].
    - by apply (Hnew []).
    - destruct (IH ds Hc) as [H1 H2]. destruct (alloc_grows c ds) as [k Hk].
      unfold page_in in Hp. rewrite E in Hp. split.
      + cbn [map]. rewrite H1. f_equal. unfold deref, resolve, resolve_types. cbn. rewrite E, Hk. by rewrite lookup_app_l.
      + constructor; [|done]. cbn. rewrite Hk, app_length. lia.
    - by apply (Hnew ((inr t, z) :: l)).
  Qed.

  (** ** Operations on one column *)
  Lemma sop_run_rt {U V} `{EqDecision U, EqDecision V} (tyU : A → U) (tyV : A → V) f castV o c :
    (∀ xs, f (type_counts tyU xs) = type_counts tyV xs) →
    sop_run ps eqb tyV castV o (map (rt f) c) = res_map (map (rt f)) (sop_run ps eqb tyU (λ l, castV (map (rt f) l)) o c).
  Proof using Type.
    intros Hf. destruct o; cbn [sop_run].
    - by apply col_setslice_rt.
    - by apply col_delitem_rt.
    - by apply col_delslice_rt.
    - cbn. by rewrite col_remove_all_rt.
    - cbn. by rewrite (col_extend_rt tyU).
    - by apply col_imul_rt.
    - done.
  Qed.
  Lemma sop_run_in n castU o c c' : Forall (page_in n) c → sop_run ps eqb tagty castU o c = Ok c' → Forall (page_in n) c'.
  Proof using Type.
    intros Hc. rewrite <- (clip_ids n c Hc), (sop_run_rt tagty tagty (clip n)) by apply clip_ok.
    destruct (sop_run _ _ _ _ _ _); [|done]. intros [= <-]. apply clips_in.
  Qed.
  Lemma sop_run_resolve ds o c :
    sop_run ps eqb ty cast o (map (resolve ds) c) =
    res_map (map (resolve ds)) (sop_run ps eqb tagty (λ l, cast (map (resolve ds) l)) o c).
  Proof using Type.
    refine (sop_run_rt tagty ty (resolve_types ds) cast o c _). intros xs. rewrite type_counts_tag. apply resolve_retag.
  Qed.

  (** ** The heap *)
  Definition in_range (n : nat) (c : list (hpage A)) : Prop := Forall (λ p, (hdict p < n)%nat) c.
  Definition wf (h : heap) : Prop :=
    Forall (in_range (length (dicts h))) (hcols h) ∧ ∀ i n a, (n, a) ∈ tabs h i → (a < length (hcols h))%nat.
  Lemma in_range_le n m c : (n ≤ m)%nat → in_range n c → in_range m c.
  Proof using Type. intros Hle Hc. eapply list.Forall_impl; [exact Hc|]. intros p Hp. cbn in *. lia. Qed.
  Lemma col_at_in (h : heap) a : wf h → in_range (length (dicts h)) (col_at h a).
  Proof using Type.
    intros [Hc _]. unfold col_at. destruct (hcols h !! a) as [c|] eqn:E; [|constructor].
    cbn. eapply list.Forall_lookup_1; [exact Hc|exact E].
  Qed.

  (** only the columns in [S] change *)
  Record writes (S : list nat) (h h' : heap) : Prop := MkWrites {
    w_tabs : tabs h' = tabs h;
    w_len : length (hcols h') = length (hcols h);
    w_frame : ∀ a, a ∉ S → hcols h' !! a = hcols h !! a;
    w_dicts : (length (dicts h) ≤ length (dicts h'))%nat;
    w_wf : wf h'
  }.
  Definition grown (h h' : heap) : Prop := ∃ k, dicts h' = dicts h ++ k.
  Lemma grown_refl h : grown h h.
  Proof using Type. exists []. by rewrite app_nil_r. Qed.
  Lemma grown_trans h1 h2 h3 : grown h1 h2 → grown h2 h3 → grown h1 h3.
  Proof using Type. intros [k E] [l F]. exists (k ++ l). by rewrite F, E, app_assoc. Qed.
  Lemma writes_refl S h : wf h → writes S h h.
  Proof using Type. by split. Qed.
  Lemma writes_trans S S' h1 h2 h3 : writes S h1 h2 → writes S' h2 h3 → writes (S ++ S') h1 h3.
  Proof using Type.
    intros [t l f d w] [t' l' f' d' w']. split; [congruence|congruence| |lia|done].
    intros a Ha. rewrite not_elem_of_app in Ha. rewrite f', f; tauto.
  Qed.
  Lemma writes_mono S S' h h' : S ⊆ S' → writes S h h' → writes S' h h'.
  Proof using Type. intros Hs [t l f d w]. split; [done|done| |done|done]. intros a Ha. apply f. set_solver. Qed.

  Lemma set_col_writes (h : heap) a ds c : wf h → (length (dicts h) ≤ length ds)%nat → in_range (length ds) c →
    writes [a] h (set_col h a ds c).
  Proof using Type.
    intros [Hc Ht] Hd Hr. split; cbn; [done|by rewrite insert_length| |done|].
    - intros b Hb. rewrite list_lookup_insert_ne; [done|]. intros ->. apply Hb. by left.
    - split; cbn.
      + apply Forall_insert; [|done]. eapply list.Forall_impl; [exact Hc|]. intros. by eapply in_range_le.
      + intros i n b Hb. rewrite insert_length. by eapply Ht.
  Qed.
  Lemma view_set_col (h : heap) a ds c : (a < length (hcols h))%nat →
    col_view (set_col h a ds c) a = map (deref ds) c.
  Proof using Type. intros Ha. unfold col_view, col_at. cbn. by rewrite list_lookup_insert. Qed.

  Lemma simple_spec (h : heap) a o : wf h → (a < length (hcols h))%nat →
    writes [a] h (col_op ty ps cast np_array eqb h a (Simple o)).1 ∧ grown h (col_op ty ps cast np_array eqb h a (Simple o)).1 ∧
    match sop_run ps eqb ty cast o (col_view h a) with
    | Ok c => (col_op ty ps cast np_array eqb h a (Simple o)).2 = Ok () ∧
              col_view (col_op ty ps cast np_array eqb h a (Simple o)).1 a = c
    | Err e => col_op ty ps cast np_array eqb h a (Simple o) = (h, Err e)
    end.
  Proof using Type.
    intros Hwf Ha. pose proof (col_at_in h a Hwf) as Hr. unfold col_view.
    rewrite <- (map_resolve_tag (dicts h)), sop_run_resolve. cbn [col_op].
    destruct (sop_run ps eqb tagty _ o _) as [c|e] eqn:E; cbn [res_map fst snd].
    - pose proof (sop_run_in _ _ _ _ _ (tags_in _ _ Hr) E) as Hin.
      destruct (alloc_spec c (dicts h) Hin) as [H1 H2]. destruct (alloc_grows c (dicts h)) as [k Hk].
      split; [apply set_col_writes; [done|rewrite Hk, app_length; lia|done]|].
      split; [by exists k|]. split; [done|]. rewrite <- H1. by apply view_set_col.
    - split; [by apply writes_refl|]. split; [apply grown_refl|done].
  Qed.

  Lemma find_page_app {U} key (c : column A U) : ∀ off before b s p r,
    find_page key off before c = Some (b, s, p, r) → before ++ c = b ++ p :: r.
  Proof using Type.
    induction c as [|q c IH]; intros off before b s p r; [done|]. cbn [find_page]. destruct (_ && _).
    - intros [= <- _ <- <-]. done.
    - intros H%IH. rewrite <- H, <- app_assoc. done.
  Qed.

  Lemma setitem_spec ds (c : list (hpage A)) key v : in_range (length ds) c →
    (∃ k, (h_setitem ty ds c key v).1 = ds ++ k) ∧
    col_setitem ty (map (deref ds) c) key v =
      res_map (map (deref (h_setitem ty ds c key v).1)) (h_setitem ty ds c key v).2 ∧
    ∀ c', (h_setitem ty ds c key v).2 = Ok c' → in_range (length (h_setitem ty ds c key v).1) c'.
  Proof using Type.
    intros Hr. pose proof (tags_in _ _ Hr) as Hin. unfold h_setitem, col_setitem.
    rewrite <- (map_resolve_tag ds). set (tc := map tag c) in *.
    change (map (resolve ds) tc) with (map (rt (resolve_types ds)) tc). rewrite col_len_rt.
    set (k := if key <? 0 then _ else _). cbv zeta.
    destruct (negb _); [split; [exists []; by rewrite app_nil_r|]; by split|].
    rewrite find_page_rt0. destruct (find_page k 0 [] tc) as [[[[b s] p] r]|] eqn:E; cbn [fmap option_fmap option_map].
    - apply find_page_app in E. cbn [app] in E. change (pdata (rt (resolve_types ds) p)) with (pdata p).
      destruct (pdata p !! _) as [old|]; [|split; [exists []; by rewrite app_nil_r|]; by split].
      set (p' := MkPage _ _). rewrite E in Hin. apply Forall_app in Hin as [Hb [Hp Hr']%list.Forall_cons].
      assert (Hn : Forall (page_in (length ds)) (b ++ [p'] ++ r)).
      { apply Forall_app. split; [done|]. constructor; [|done]. unfold page_in, p'. cbn. by destruct (swap_type _ _ _) as [|[] ]. }
      destruct (alloc_spec _ ds Hn) as [H1 H2]. cbn [fst snd res_map]. split; [apply alloc_grows|]. split.
      + f_equal. rewrite H1, !map_app. cbn [map].
        assert (Ep : resolve ds p' = MkPage (pdata p') (swap_type (ptypes (resolve ds p)) (ty old) (ty v))).
        { unfold resolve at 1. cbn [pdata ptypes p']. by rewrite resolve_retag. }
        rewrite Ep. done.
      + intros c' [= <-]. done.
    - destruct (alloc_spec _ ds Hin) as [H1 H2]. cbn [fst snd res_map]. split; [apply alloc_grows|]. split.
      + by rewrite H1.
      + intros c' [= <-]. done.
  Qed.
  Lemma setitem_op_spec (h : heap) a key v : wf h → (a < length (hcols h))%nat →
    writes [a] h (col_op ty ps cast np_array eqb h a (SetItem key v)).1 ∧
    grown h (col_op ty ps cast np_array eqb h a (SetItem key v)).1 ∧
    match col_setitem ty (col_view h a) key v with
    | Ok c => (col_op ty ps cast np_array eqb h a (SetItem key v)).2 = Ok () ∧
              col_view (col_op ty ps cast np_array eqb h a (SetItem key v)).1 a = c
    | Err e => col_op ty ps cast np_array eqb h a (SetItem key v) = (h, Err e)
    end.
  Proof using Type.
    intros Hwf Ha. destruct (setitem_spec (dicts h) (col_at h a) key v (col_at_in h a Hwf)) as ([k Hk] & Hs & Hr).
    unfold col_view. rewrite Hs. cbn [col_op]. destruct (h_setitem _ _ _ _ _) as [ds [c|e]]; cbn [fst snd res_map] in *.
    - subst ds. split; [apply set_col_writes; [done|rewrite app_length; lia|by apply Hr]|].
      split; [by exists k|]. split; [done|]. by apply view_set_col.
    - split; [by apply writes_refl|]. split; [apply grown_refl|done].
  Qed.

  Lemma h_replace_spec m (c : list (hpage A)) : ∀ ds, let r := h_replace ty cast np_array eqb m ds c in
    length r.1.1 = length ds ∧ map hdict r.1.2 = map hdict c.
  Proof using Type.
    induction c as [|p c IH]; intros ds; cbn [h_replace]; [done|]. cbv zeta. destruct (existsb _ _).
    - destruct (h_replace_loop _ _ _ _ _ _) as [[w|e] d]; cbn [fst snd].
      + pose proof (IH (<[hdict p:=d]> ds)) as [H1 H2]. destruct (h_replace _ _ _ _ _ _ c) as [[ds' c'] e].
        cbn [fst snd] in *. rewrite insert_length in H1. split; [done|]. cbn. by rewrite H2.
      + by rewrite insert_length.
    - pose proof (IH ds) as [H1 H2]. destruct (h_replace _ _ _ _ _ _ c) as [[ds' c'] e]. cbn [fst snd] in *.
      split; [done|]. cbn. by rewrite H2.
  Qed.
  Lemma in_range_map n (c c' : list (hpage A)) : map hdict c' = map hdict c → in_range n c → in_range n c'.
  Proof using Type.
    unfold in_range. revert c. induction c' as [|p' c' IH]; intros [|p c] E Hc; try done. injection E as E1 E2.
    apply list.Forall_cons in Hc as [Hp Hc]. constructor; [lia|]. by eapply IH.
  Qed.
  Lemma col_op_writes (h : heap) a o : wf h → (a < length (hcols h))%nat →
    writes [a] h (col_op ty ps cast np_array eqb h a o).1.
  Proof using Type.
    intros Hwf Ha. destruct o; [by apply simple_spec|by apply setitem_op_spec|].
    cbn [col_op]. destruct (h_replace_spec mapping (col_at h a) (dicts h)) as [H1 H2].
    destruct (h_replace _ _ _ _ _ _ _) as [[ds c] e]. cbn [fst snd] in *. apply set_col_writes; [done|lia|].
    rewrite H1. eapply in_range_map; [exact H2|]. by apply col_at_in.
  Qed.
  Definition not_replace (o : cop A) : Prop := match o with Replace _ => False | _ => True end.
  Lemma col_op_grown (h : heap) a o : wf h → (a < length (hcols h))%nat → not_replace o →
    grown h (col_op ty ps cast np_array eqb h a o).1.
  Proof using Type. intros Hwf Ha. destruct o; intros Hn; [by apply simple_spec|by apply setitem_op_spec|done]. Qed.

  Lemma cols_op_writes l o : ∀ h : heap, wf h → (∀ a, a ∈ l → (a < length (hcols h))%nat) →
    writes l h (cols_op ty ps cast np_array eqb h l o).1 ∧
    (not_replace o → grown h (cols_op ty ps cast np_array eqb h l o).1).
  Proof using Type.
    induction l as [|a l IH]; intros h Hwf Hl; cbn [cols_op].
    - split; [by apply writes_refl|]. intros _. apply grown_refl.
    - assert (Ha : (a < length (hcols h))%nat) by (apply Hl; left).
      pose proof (col_op_writes h a o Hwf Ha) as Hw. pose proof (col_op_grown h a o Hwf Ha) as Hg.
      destruct (col_op _ _ _ _ _ h a o) as [h1 [u|e]]; cbn [fst] in *.
      + destruct (IH h1) as [Hw1 Hg1]; [by apply Hw|intros b Hb; rewrite (w_len _ _ _ Hw); apply Hl; by right|].
        split; [by apply (writes_trans [a] l _ h1)|]. intros Hn. eapply grown_trans; eauto.
      + split; [|done]. eapply writes_mono; [|exact Hw]. set_solver.
  Qed.

  Lemma col_add_writes (h : heap) a b : wf h → writes [a] h (col_add h a b).
  Proof using Type.
    intros Hwf. apply set_col_writes; [done|done|]. apply Forall_app. split; by apply col_at_in.
  Qed.
  Lemma add_cols_writes l j : ∀ h : heap, wf h →
    writes l.*2 h (add_cols h l j).1 ∧ grown h (add_cols h l j).1.
  Proof using Type.
    induction l as [|[n a] l IH]; intros h Hwf; cbn [add_cols].
    - split; [by apply writes_refl|apply grown_refl].
    - destruct (dget _ _) as [b|]; [|split; [by apply writes_refl|apply grown_refl]].
      pose proof (col_add_writes h a b Hwf) as Hw. destruct (IH (col_add h a b)) as [Hw1 Hg1]; [by apply Hw|].
      split; [|exact Hg1]. rewrite fmap_cons. by apply (writes_trans [a] l.*2 _ _ _ Hw).
  Qed.

  (** only new columns *)
  Record adds (h h' : heap) : Prop := MkAdds {
    a_tabs : tabs h' = tabs h;
    a_cols : ∃ k, hcols h' = hcols h ++ k;
    a_dicts : grown h h';
    a_wf : wf h'
  }.
  Lemma adds_refl h : wf h → adds h h.
  Proof using Type. intros. split; [done|exists []; by rewrite app_nil_r|apply grown_refl|done]. Qed.
  Lemma adds_trans h1 h2 h3 : adds h1 h2 → adds h2 h3 → adds h1 h3.
  Proof using Type.
    intros [t [k c] d w] [t' [k' c'] d' w']. split; [congruence| |by eapply grown_trans|done].
    exists (k ++ k'). by rewrite c', c, app_assoc.
  Qed.
  Lemma new_col_adds (h : heap) k c : wf h → in_range (length (dicts h ++ k)) c → adds h (new_col h (dicts h ++ k) c).1.
  Proof using Type.
    intros [Hc Ht] Hr. split; cbn; [done|by eexists|by eexists|]. split; cbn.
    - apply Forall_app. split; [|by apply Forall_singleton]. eapply list.Forall_impl; [exact Hc|]. intros.
      eapply in_range_le; [|done]. rewrite app_length. lia.
    - intros i n a Ha. rewrite app_length. apply Ht in Ha. lia.
  Qed.
  Lemma adds_len h h' : adds h h' → (length (hcols h) ≤ length (hcols h'))%nat.
  Proof using Type. intros [_ [k ->] _ _]. rewrite app_length. lia. Qed.
  Lemma new_col_len (h : heap) ds c : length (hcols (new_col h ds c).1) = S (length (hcols h)).
  Proof using Type. cbn. rewrite app_length. cbn. lia. Qed.
  Lemma elem_of_dset {K V} `{EqDecision K} (d : list (K * V)) k v q : q ∈ dset d k v → q ∈ d ∨ q.2 = v.
  Proof using Type.
    induction d as [|[k' v'] d IH]; cbn [dset].
    - intros ->%elem_of_list_singleton. by right.
    - destruct (decide (k = k')); intros [->|H]%elem_of_cons; [by right|left; by right|left; by left|].
      destruct (IH H); [left; by right|by right].
  Qed.
  (** the entries are those of [acc] or new columns of [h'] *)
  Definition fresh_or (h h' : heap) (acc t : list (N * nat)) : Prop :=
    ∀ q, q ∈ t → q ∈ acc ∨ (length (hcols h) ≤ q.2 < length (hcols h'))%nat.
  Lemma copy_cols_adds src : ∀ (h : heap) dst, wf h →
    adds h (copy_cols h src dst).1 ∧ fresh_or h (copy_cols h src dst).1 dst (copy_cols h src dst).2.
  Proof using Type.
    induction src as [|[n a] src IH]; intros h dst Hwf; cbn [copy_cols].
    - split; [by apply adds_refl|]. intros q Hq. by left.
    - assert (Ha : adds h (new_col h (dicts h) (col_at h a)).1).
      { rewrite <- (app_nil_r (dicts h)) at 1. apply new_col_adds; [done|]. rewrite app_nil_r. by apply col_at_in. }
      destruct (IH _ (dset dst n (length (hcols h))) (a_wf _ _ Ha)) as [H1 H2].
      split; [by eapply adds_trans|]. intros q Hq. destruct (H2 q Hq) as [Hq'|Hq'].
      + apply elem_of_dset in Hq' as [?|E]; [by left|]. right. rewrite E.
        apply adds_len in H1. rewrite new_col_len in H1. cbn [new_col fst snd] in *. lia.
      + right. rewrite new_col_len in Hq'. cbn [new_col fst snd] in *. lia.
  Qed.
  Lemma sub_column_in n c s c' : Forall (page_in n) c → sub_column tagty ps c s = Ok c' → Forall (page_in n) c'.
  Proof using Type.
    intros Hc. rewrite <- (clip_ids n c Hc), (sub_column_rt tagty tagty (clip n)) by apply clip_ok.
    destruct (sub_column _ _ _ _); [|done]. intros [= <-]. apply clips_in.
  Qed.
  Lemma slice_cols_adds t ns s : ∀ (h : heap) acc, wf h →
    adds h (slice_cols ty ps h t ns s acc).1 ∧
    ∀ t', (slice_cols ty ps h t ns s acc).2 = Ok t' → fresh_or h (slice_cols ty ps h t ns s acc).1 acc t'.
  Proof using Type.
    induction ns as [|n ns IH]; intros h acc Hwf; cbn [slice_cols].
    - split; [by apply adds_refl|]. intros t' [= <-] q Hq. by left.
    - destruct (dget t n) as [a|]; [|split; [by apply adds_refl|done]].
      destruct (sub_column _ _ _ _) as [c|e] eqn:E; [|split; [by apply adds_refl|done]].
      pose proof (sub_column_in _ _ _ _ (tags_in _ _ (col_at_in h a Hwf)) E) as Hin.
      destruct (alloc_spec c (dicts h) Hin) as [_ H2]. destruct (alloc_grows c (dicts h)) as [k Hk].
      cbv zeta.
      assert (Ha : adds h (new_col h (alloc (dicts h) c).1 (alloc (dicts h) c).2).1).
      { rewrite Hk. apply new_col_adds; [done|]. by rewrite <- Hk. }
      destruct (IH _ (dset acc n (length (hcols h))) (a_wf _ _ Ha)) as [H1 H3].
      split; [by eapply adds_trans|]. intros t' Ht' q Hq. destruct (H3 t' Ht' q Hq) as [Hq'|Hq'].
      + apply elem_of_dset in Hq' as [?|E']; [by left|]. right. rewrite E'.
        apply adds_len in H1. rewrite new_col_len in H1. cbn [new_col fst snd] in *. lia.
      + right. rewrite new_col_len in Hq'. cbn [new_col fst snd] in *. lia.
  Qed.

  (** ** Isolation *)
  Section sides.
    Context {G : Type} (g : nat → G).
    Notation apart := (apart g).
    Notation respects := (respects g).
    Record effect (i : nat) (h h' : heap) : Prop := MkEffect {
      e_tabs : ∀ x, x ≠ i → tabs h' x = tabs h x;
      e_entries : ∀ n a, (n, a) ∈ tabs h' i →
        (length (hcols h) ≤ a)%nat ∨ ∃ y m, g y = g i ∧ (m, a) ∈ tabs h y;
      e_cols : ∀ a, (a < length (hcols h))%nat → (∀ n, (n, a) ∉ tabs h i) → hcols h' !! a = hcols h !! a;
      e_wf : wf h'
    }.
    Lemma effect_refl i h : wf h → effect i h h.
    Proof using Type. intros. split; try done. intros n a Ha. right. by exists i, n. Qed.
    Lemma effect_writes i h h' S : (∀ a, a ∈ S → ∃ n, (n, a) ∈ tabs h i) → writes S h h' → effect i h h'.
    Proof using Type.
      intros HS [t l f d w]. split; rewrite ?t; try done.
      - intros n a Ha. right. by exists i, n.
      - intros a _ Ha. apply f. intros [n Hn]%HS. by apply (Ha n).
    Qed.
    Lemma effect_adds i h h' t : adds h h' →
      (∀ n a, (n, a) ∈ t → (length (hcols h) ≤ a < length (hcols h'))%nat ∨ ∃ y m, g y = g i ∧ (m, a) ∈ tabs h y) →
      wf h → effect i h (set_tab h' i t).
    Proof using Type.
      intros [tt [k c] d w] Ht Hwf. split; cbn.
      - intros x Hx. by rewrite fn_lookup_insert_ne, tt.
      - intros n a. rewrite fn_lookup_insert. intros [?|?]%Ht; [left; lia|by right].
      - intros a Ha _. by rewrite c, lookup_app_l.
      - destruct w as [w1 w2]. split; [done|]. cbn. intros x n a. destruct (decide (i = x)) as [->|Hx].
        + rewrite fn_lookup_insert. intros [?|(y & m & _ & Hy)]%Ht; [lia|].
          destruct Hwf as [_ Hwf]. apply Hwf in Hy. rewrite c, app_length. lia.
        + rewrite fn_lookup_insert_ne by done. apply w2.
    Qed.
    Lemma effect_iso i h h' x : effect i h h' → wf h → apart h → g x ≠ g i →
      tabs h' x = tabs h x ∧ ∀ n a, (n, a) ∈ tabs h x → hcols h' !! a = hcols h !! a.
    Proof using Type.
      intros [t e c w] [_ Hwf] Ha Hx. split; [apply t; congruence|]. intros n a Hin. apply c; [by eapply Hwf|].
      intros m Hm. by eapply (Ha x i).
    Qed.
    Lemma effect_apart i h h' : effect i h h' → wf h → apart h → apart h'.
    Proof using Type.
      intros [t e c w] [_ Hwf] Ha.
      assert (H1 : ∀ y n m a, g i ≠ g y → (n, a) ∈ tabs h' i → (m, a) ∈ tabs h' y → False).
      { intros y n m a Hg Hi Hy. rewrite t in Hy by congruence. destruct (e n a Hi) as [Hlt|(z & m' & Hz & Hin)].
        - apply Hwf in Hy. lia.
        - eapply (Ha z y); [|exact Hin|exact Hy]. congruence. }
      intros x y n m a Hg Hx Hy. destruct (decide (x = i)) as [->|Hxi]; [by eapply H1|].
      destruct (decide (y = i)) as [->|Hyi]; [by eapply (H1 x)|].
      rewrite t in Hx, Hy by done. by eapply (Ha x y).
    Qed.

    Lemma dget_elem {K V} `{EqDecision K} (d : list (K * V)) k v : dget d k = Some v → (k, v) ∈ d.
    Proof using Type.
      induction d as [|[k' v'] d IH]; cbn [dget]; [done|]. destruct (decide (k = k')) as [->|]; [intros [= ->]; left|].
      intros H. right. by apply IH.
    Qed.
    Lemma select_cols_in (t : list (N * nat)) ns : ∀ acc t', select_cols t ns acc = Ok t' → ∀ q, q ∈ t' → q ∈ acc ∨ ∃ m, (m, q.2) ∈ t.
    Proof using Type.
      induction ns as [|n ns IH]; intros acc t'; cbn [select_cols].
      - intros [= <-] q Hq. by left.
      - destruct (dget t n) as [a|] eqn:E; [|done]. intros H q Hq. destruct (IH _ _ H q Hq) as [Hq'|?]; [|by right].
        apply elem_of_dset in Hq' as [?| ->]; [by left|]. right. exists n. by apply dget_elem.
    Qed.
    Lemma in_snd (l : list (N * nat)) a : a ∈ l.*2 → ∃ n, (n, a) ∈ l.
    Proof using Type. intros ([n b] & -> & H)%elem_of_list_fmap. by exists n. Qed.

    Lemma step_effect (h : heap) o : wf h → respects o → effect (target o) h (step ty ps cast np_array eqb h o).1.
    Proof using Type.
      intros Hwf Hr. destruct o as [i n o|i n j m|i n vs|i n j m|i n|i o|i|i k|i j|i k|i ns k|i ns s k]; cbn [step target].
      - unfold with_col. destruct (dget (tabs h i) n) as [a|] eqn:E; [|by apply effect_refl]. apply dget_elem in E.
        eapply effect_writes; [|apply col_op_writes; [done|by eapply Hwf]].
        intros b ->%elem_of_list_singleton. by exists n.
      - unfold with_col. destruct (dget (tabs h i) n) as [a|] eqn:E; [|by apply effect_refl]. apply dget_elem in E.
        destruct (dget (tabs h j) m) as [b|] eqn:E'; [|by apply effect_refl].
        eapply effect_writes; [|by apply col_add_writes]. intros b' ->%elem_of_list_singleton. by exists n.
      - assert (Hin : Forall (page_in (length (dicts h))) (col_new tagty ps vs)).
        { apply (sop_run_in _ (λ l v, Ok v) (Extend vs) [] _); [constructor|done]. }
        destruct (alloc_spec _ (dicts h) Hin) as [_ H2]. destruct (alloc_grows (col_new tagty ps vs) (dicts h)) as [q Hq].
        cbv zeta. cbn [fst]. eapply effect_adds; [|  |done].
        + rewrite Hq. apply new_col_adds; [done|]. by rewrite <- Hq.
        + intros n' a Ha%elem_of_dset. destruct Ha as [Ha|Ha].
          * right. by exists i, n'.
          * left. cbn in Ha. subst a. cbn. rewrite app_length. cbn. lia.
      - unfold with_col. destruct (dget (tabs h j) m) as [b|] eqn:E; [|by apply effect_refl]. apply dget_elem in E.
        cbn [fst]. eapply effect_adds; [by apply adds_refl| |done]. intros n' a [Ha|Ha]%elem_of_dset; right.
        + by exists i, n'.
        + cbn in Ha. subst. exists j, m. cbn in Hr. done.
      - unfold with_col. destruct (dget (tabs h i) n) as [a|] eqn:E; [|by apply effect_refl].
        cbn [fst]. eapply effect_adds; [by apply adds_refl| |done]. intros n' b Hb. right. exists i, n'.
        split; [done|]. unfold ddel in Hb. by apply elem_of_list_filter in Hb as [_ ?].
      - eapply effect_writes; [|apply cols_op_writes; [done|]].
        + apply in_snd.
        + intros a [n' Hn]%in_snd. by eapply Hwf.
      - cbn [fst]. eapply effect_adds; [by apply adds_refl| |done]. intros n a H. by apply elem_of_nil in H.
      - destruct (0 <? k); [|by apply effect_refl]. eapply effect_writes; [|apply cols_op_writes; [done|]].
        + apply in_snd.
        + intros a [n' Hn]%in_snd. by eapply Hwf.
      - destruct (negb _); [by apply effect_refl|]. destruct (negb _); [by apply effect_refl|].
        eapply effect_writes; [|by apply add_cols_writes]. apply in_snd.
      - cbv zeta. cbn [fst]. destruct (copy_cols_adds (tabs h i) h [] Hwf) as [H1 H2].
        apply effect_adds; [done| |done]. intros n a Ha. destruct (H2 _ Ha) as [H|H]; [by apply elem_of_nil in H|by left].
      - destruct (select_cols _ _ _) as [t|] eqn:E; [|by apply effect_refl]. cbn [fst].
        eapply effect_adds; [by apply adds_refl| |done]. intros n a Ha. right.
        destruct (select_cols_in _ _ _ _ E _ Ha) as [H|[m Hm]]; [by apply elem_of_nil in H|]. exists i, m. done.
      - destruct (slice_cols_adds (tabs h i) ns s h [] Hwf) as [H1 H2].
        destruct (slice_cols _ _ _ _ _ _ _) as [h1 [t|e]]; cbn [fst snd] in *.
        + apply effect_adds; [done| |done]. intros n a Ha. destruct (H2 t eq_refl _ Ha) as [H|H]; [by apply elem_of_nil in H|by left].
        + destruct H1 as [tt [q c] d w]. split; rewrite ?tt; try done.
          * intros n a Ha. right. by exists k, n.
          * intros a Ha _. by rewrite c, lookup_app_l.
    Qed.

    Lemma run_wf os : ∀ h : heap, wf h → apart h → Forall respects os →
      wf (run ty ps cast np_array eqb h os) ∧ apart (run ty ps cast np_array eqb h os).
    Proof using Type.
      induction os as [|o os IH]; intros h Hwf Ha Hr; [done|]. apply list.Forall_cons in Hr as [Ho Hr].
      cbn [run fold_left]. pose proof (step_effect h o Hwf Ho) as He. apply IH; [apply He| |done].
      by eapply effect_apart.
    Qed.
  End sides.
End heap.
