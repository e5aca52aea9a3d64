(** Proofs about [Model.Merge] *)
From stdpp Require Import strings.
From Verif.Spec Require Import Merge.
From Verif.Proof Require Import SliceLemmas SmallProofs ColumnRead DictLemmas NamesProofs TableBase.
From Verif.Model Require Import Merge.
Local Open Scope Z_scope.

Lemma page_steps_one ps len : 0 < ps → 0 <= len <= ps → page_steps ps len = [(0, len)].
Proof.
  intros Hps Hl. unfold page_steps. rewrite py_range_length. unfold range_count.
  assert ((0 <? ps) = true) as -> by lia.
  assert (H : 1 <= (len + 1 - 0 + ps - 1) / ps) by (apply Z.div_le_lower_bound; lia).
  destruct (Z.to_nat ((len + 1 - 0 + ps - 1) / ps)) as [|k] eqn:E; [lia|]. cbn [step_loop].
  replace (Z.min (0 + ps) len) with len by lia. by rewrite Z.eqb_refl.
Qed.
Lemma page_steps_first ps len : 0 < ps → ps < len → ∃ rest, page_steps ps len = (0, ps) :: rest.
Proof.
  intros Hps Hl. unfold page_steps. rewrite py_range_length. unfold range_count.
  assert ((0 <? ps) = true) as -> by lia.
  assert (H : 1 <= (len + 1 - 0 + ps - 1) / ps) by (apply Z.div_le_lower_bound; lia).
  destruct (Z.to_nat ((len + 1 - 0 + ps - 1) / ps)) as [|k] eqn:E; [lia|]. cbn [step_loop].
  replace (Z.min (0 + ps) len) with ps by lia. eauto.
Qed.

Section np.
  Context {A : Type} (promote : list A → list A → A → A).
  Lemma stretch_same {X} (l : list X) : stretch (length l) l = l.
  Proof. by destruct l as [|x [|y l]]. Qed.
  Lemma np_where_same c (l r : list A) : length l = length c → length r = length c →
    np_where promote c l r = Ok (map (promote l r) (choose c l r)).
  Proof.
    intros Hl Hr. unfold np_where. rewrite Hl, Hr.
    assert (Hd : filter (λ n, n ≠ 1%nat) [length c; length c; length c] = [] ∧ length c = 1%nat ∨
      filter (λ n, n ≠ 1%nat) [length c; length c; length c] = [length c; length c; length c]).
    { rewrite !filter_cons, filter_nil. case_decide; [by right|left; split; [done|lia]]. }
    assert (Hz : zip_with (λ (b : bool) (p : A * A), promote l r (if b then p.1 else p.2)) c (zip l r) = map (promote l r) (choose c l r)).
    { unfold choose. generalize (zip l r). intros ps. generalize (promote l r). clear. intros f. revert ps.
      induction c as [|b c IH]; intros [|p ps]; [done..|]. cbn. by rewrite IH. }
    destruct Hd as [[-> Hc]| ->]; cbn [head default forallb].
    - cbn [from_option id]. rewrite Hc in *. rewrite <- Hl at 2. rewrite <- Hr at 2. rewrite <- Hc at 1.
      rewrite !stretch_same. by rewrite Hz.
    - rewrite !bool_decide_eq_true_2 by done. cbn [andb from_option id].
      rewrite <- Hl at 2. rewrite <- Hr at 2. rewrite !stretch_same. by rewrite Hz.
  Qed.
  Lemma np_where_err c (l r : list A) : length l ≠ length c → length l ≠ 1%nat → length c ≠ 1%nat →
    np_where promote c l r = Err ValueError.
  Proof.
    intros Hl H1 H2. unfold np_where. rewrite !filter_cons, filter_nil. rewrite decide_True by done.
    rewrite decide_True by done. cbn [head default from_option id].
    assert (H : ∀ x, forallb (λ m, bool_decide (m = length c)) (length c :: length l :: x) = false).
    { intros x. cbn [forallb]. rewrite (bool_decide_eq_false_2 (length l = length c)) by done. by rewrite andb_false_r. }
    rewrite H. done.
  Qed.
End np.

Section proofs.
  Context {A T : Type} `{EqDecision T} (ty : A → T) (promote : list A → list A → A → A) (ps : Z) (Hps : 0 < ps).
  Notation tbl := (table string A T).
  Implicit Types (t : tbl).

  Lemma contents_ddel t n : contents (ddel t n) = ddel (contents t) n.
  Proof.
    unfold contents, ddel. induction t as [|[m c] t IH]; [done|]. cbn [map]. rewrite !filter_cons. cbn [fst].
    case_decide; [|done]. cbn [map fst]. by rewrite IH.
  Qed.
  Lemma page_values_ok t name c s e : dget t name = Some c → 0 <= s → 0 <= e →
    page_values t name (s, e) = Ok (drop (Z.to_nat s) (take (Z.to_nat e) (col_iter c))).
  Proof.
    intros Hc Hs He. unfold page_values. rewrite Hc, col_getslice_pos by done. cbn [fst snd]. by rewrite getslice_between.
  Qed.
  Lemma tbl_del_ok t n : n ∈ t.*1 → tbl_del t n = Ok (ddel t n).
  Proof. intros Hn. unfold tbl_del. destruct (dget_in t n Hn) as [c ->]. done. Qed.
  Lemma del_all_ok t a b : a ≠ b → a ∈ t.*1 → b ∈ t.*1 →
    del_all t [a; b] = (Ok (ddel (ddel t a) b), ddel (ddel t a) b).
  Proof.
    intros Hne Ha Hb. cbn [del_all]. rewrite tbl_del_ok by done. rewrite tbl_del_ok; [done|].
    destruct (dget_in t b Hb) as [c Hc]. apply (dget_elem _ _ c). rewrite dget_ddel, decide_False by done. done.
  Qed.

  (** dicts *)
  Lemma dset_replace {V} (d : list (string * V)) n v : n ∈ d.*1 → NoDup d.*1 →
    dset d n v = map (λ c, if decide (c.1 = n) then (n, v) else c) d.
  Proof.
    induction d as [|[m w] d IH]; intros Hn Hd; [by apply elem_of_nil in Hn|]. cbn [dset map fst].
    apply list.NoDup_cons in Hd as [Hm Hd]. destruct (decide (n = m)) as [->|Hne].
    - rewrite decide_True by done. f_equal. symmetry. rewrite <- (map_id d) at 2. apply map_ext_in.
      intros [k x] Hk%elem_of_list_In. cbn [fst]. rewrite decide_False; [done|]. intros ->. apply Hm.
      by apply (elem_of_list_fmap_1 fst) in Hk.
    - rewrite decide_False by done. f_equal. apply IH; [|done]. apply elem_of_cons in Hn as [?|?]; done.
  Qed.
  Lemma ddel_filter {V} (d : list (string * V)) a b : ddel (ddel d a) b = filter (λ c, c.1 ≠ a ∧ c.1 ≠ b) d.
  Proof.
    unfold ddel. rewrite list_filter_filter. apply list_filter_iff. naive_solver.
  Qed.

  Lemma loop_one t criteria left right new_uq l r : length l = length criteria → length r = length criteria →
    0 <= zlen criteria <= ps → dget (contents t) left = Some l → dget (contents t) right = Some r →
    left ≠ new_uq → right ≠ new_uq → dget t new_uq = Some [] →
    ∃ t', where_loop ty promote ps t criteria left right new_uq (page_steps ps (zlen criteria)) = (Ok t', t') ∧
      contents t' = dset (contents t) new_uq (map (promote l r) (choose criteria l r)).
  Proof using Hps.
    intros Hl Hr Hn Hgl Hgr Hnl Hnr Hu. rewrite page_steps_one by done. cbn [where_loop].
    rewrite contents_dget in Hgl, Hgr. destruct (dget t left) as [cl|] eqn:El; [|done]. destruct (dget t right) as [cr|] eqn:Er; [|done].
    injection Hgl as Hgl. injection Hgr as Hgr.
    rewrite !(page_values_ok _ _ _ _ _ El), !(page_values_ok _ _ _ _ _ Er) by lia. cbn [res_bind].
    rewrite !drop_0, Nat2Z.id, Hgl, Hgr. rewrite !firstn_all2 by lia. rewrite np_where_same by done.
    rewrite Hu. cbn [default from_option id]. eexists. split; [done|]. rewrite contents_dset, col_extend_iter by done. done.
  Qed.

  Lemma where_spec t criteria left right new l r n :
    NoDup t.*1 → rect n (contents t) → length criteria = n → Z.of_nat n <= ps → left ≠ right →
    dget (contents t) left = Some l → dget (contents t) right = Some r →
    new = left ∨ new = right ∨ new ∉ t.*1 →
    Forall (λ x, promote l r x = x) (l ++ r) →
    ∃ t', where_ ty promote ps t criteria left right new = (Ok t', t') ∧
      contents t' = merged (contents t) left right new (choose criteria l r).
  Proof using Hps.
    intros Hnd Hrect Hc Hn Hlr Hgl Hgr Hnew Hp. unfold where_.
    destruct (unique_name_spec new t.*1) as (uq & Huq & Hfr & Hcase). rewrite Huq.
    assert (HL : length l = n ∧ length r = n).
    { unfold rect in Hrect. rewrite <- contents_names in Hnd. split.
      - apply dget_Some in Hgl; [|done]. apply (proj1 (list.Forall_forall _ _) Hrect) in Hgl. done.
      - apply dget_Some in Hgr; [|done]. apply (proj1 (list.Forall_forall _ _) Hrect) in Hgr. done. }
    destruct HL as [Hll Hlr'].
    assert (Hin : left ∈ t.*1 ∧ right ∈ t.*1).
    { rewrite <- contents_names. split; by eapply dget_elem. }
    destruct Hin as [Hil Hir].
    assert (left ≠ uq ∧ right ≠ uq) as [Hlu Hru] by (split; congruence).
    assert (Hchoose : map (promote l r) (choose criteria l r) = choose criteria l r).
    { rewrite <- (map_id (choose criteria l r)) at 2. apply map_ext_in. intros x Hx%elem_of_list_In.
      apply (proj1 (list.Forall_forall _ _) Hp). unfold choose in Hx. apply elem_of_lookup_zip_with in Hx as (i & b & p & -> & _ & Hpp).
      apply elem_of_list_lookup_2 in Hpp. destruct p as [x y]. apply elem_of_app.
      pose proof (elem_of_zip_l _ _ _ _ Hpp). pose proof (elem_of_zip_r _ _ _ _ Hpp). destruct b; cbn; auto. }
    destruct (loop_one (dset t uq []) criteria left right uq l r) as (t' & -> & Hc').
    { lia. } { lia. } { lia. }
    { by rewrite contents_dset, dget_dset, decide_False by done. } { by rewrite contents_dset, dget_dset, decide_False by done. }
    { done. } { done. } { by rewrite dget_dset, decide_True by done. }
    assert (Hfc : uq ∉ (contents t).*1) by (change ((contents t).*1) with (names (contents t)); by rewrite contents_names).
    rewrite contents_dset, (dset_fresh (contents t)) in Hc' by done.
    assert (Hc2 : contents t' = contents t ++ [(uq, choose criteria l r)]).
    { rewrite Hc', Hchoose. clear -Hfc. induction (contents t) as [|[m w] d IH]; cbn [app dset].
      - by rewrite decide_True.
      - rewrite fmap_cons in Hfc. apply not_elem_of_cons in Hfc as [Hm Hfc]. rewrite decide_False by done. by rewrite IH. }
    assert (Hk : t'.*1 = t.*1 ++ [uq]).
    { rewrite <- !contents_names. unfold names. rewrite Hc2, fmap_app. done. }
    assert (Hgu : col_iter (default [] (dget t' uq)) = choose criteria l r).
    { assert (Hg : dget (contents t') uq = Some (choose criteria l r)).
      { rewrite Hc2. apply dget_Some; [|apply elem_of_app; right; by apply elem_of_list_singleton].
        rewrite fmap_app. apply list.NoDup_app. split; [|split; [|apply NoDup_singleton]].
        - change ((contents t).*1) with (names (contents t)). by rewrite contents_names.
        - intros x Hx ->%elem_of_list_singleton. done. }
      rewrite contents_dget in Hg. destruct (dget t' uq) as [cu|]; [|done]. by injection Hg. }
    assert (Hndc : NoDup (contents t).*1) by (change ((contents t).*1) with (names (contents t)); by rewrite contents_names).
    assert (Hrep : ∀ name other, name ∈ t.*1 → other ∈ t.*1 → name ≠ other →
      (∀ m, m ≠ name → m ≠ other ↔ m ≠ left ∧ m ≠ right) →
      ∃ t'', del_all (set_same t' name uq) [uq; other] = (Ok t'', t'') ∧
        contents t'' = filter (λ c, c.1 = name ∨ c.1 ≠ left ∧ c.1 ≠ right)
          (map (λ c, if decide (c.1 = name) then (name, choose criteria l r) else c) (contents t))).
    { intros name other Hname Hother Hne Hiff.
      assert (Hkk : (set_same t' name uq).*1 = t.*1 ++ [uq]).
      { unfold set_same. rewrite dset_keys, decide_True; [done|]. rewrite Hk. apply elem_of_app. by left. }
      rewrite del_all_ok.
      - eexists. split; [done|]. rewrite !contents_ddel, ddel_filter. unfold set_same. rewrite contents_dset, Hgu, Hc2.
        rewrite dset_replace.
        2:{ rewrite fmap_app. apply elem_of_app. left. change ((contents t).*1) with (names (contents t)). by rewrite contents_names. }
        2:{ rewrite fmap_app. apply list.NoDup_app. split; [done|]. split; [|apply NoDup_singleton].
            intros x Hx ->%elem_of_list_singleton. done. }
        rewrite map_app, list.filter_app. cbn [map fst]. rewrite decide_False by congruence.
        rewrite (filter_cons _ (uq, _)). rewrite decide_False by (cbn; naive_solver). rewrite filter_nil, app_nil_r.
        assert (Hall : ∀ d : list (string * list A), uq ∉ d.*1 →
          filter (λ c, c.1 ≠ uq ∧ c.1 ≠ other) (map (λ c, if decide (c.1 = name) then (name, choose criteria l r) else c) d)
          = filter (λ c, c.1 = name ∨ c.1 ≠ left ∧ c.1 ≠ right) (map (λ c, if decide (c.1 = name) then (name, choose criteria l r) else c) d)).
        { induction d as [|[m w] d IH]; intros Hd; [done|]. rewrite fmap_cons in Hd. cbn [fst] in Hd. apply not_elem_of_cons in Hd as [Hm Hd].
          cbn [map fst]. rewrite !filter_cons. rewrite IH by done. destruct (decide (m = name)) as [->|Hmn]; cbn [fst].
          - rewrite decide_True by (split; congruence). rewrite decide_True by (by left). done.
          - destruct (decide (m ≠ left ∧ m ≠ right)) as [Hq|Hq].
            + rewrite decide_True by (split; [congruence|by apply Hiff]). rewrite decide_True by (by right). done.
            + rewrite decide_False by (intros [_ ?]; apply Hq; by apply Hiff). rewrite decide_False by naive_solver. done. }
        apply Hall. done.
      - congruence.
      - rewrite Hkk. apply elem_of_app. right. by apply elem_of_list_singleton.
      - rewrite Hkk. apply elem_of_app. by left. }
    unfold merged. rewrite contents_names.
    destruct (decide (new = right)) as [->|Hnr].
    { rewrite (decide_True (P := right ∈ t.*1)) by done. apply Hrep; [done|done|congruence|]. naive_solver. }
    destruct (decide (new = left)) as [->|Hnl].
    { rewrite (decide_True (P := left ∈ t.*1)) by done. apply Hrep; [done|done|congruence|]. naive_solver. }
    destruct Hnew as [?|[?|Hnew]]; [done..|]. rewrite (decide_False (P := new ∈ t.*1)) by done.
    destruct Hcase as [[_ ->]|[? _]]; [|done].
    assert (Hkk : (set_same t' new new).*1 = t.*1 ++ [new]).
    { unfold set_same. rewrite dset_keys, decide_True; [done|]. rewrite Hk. apply elem_of_app. right. by apply elem_of_list_singleton. }
    rewrite del_all_ok; [|done|rewrite Hkk; apply elem_of_app; by left..].
    eexists. split; [done|]. rewrite !contents_ddel, ddel_filter. unfold set_same. rewrite contents_dset, Hgu, Hc2.
    replace (dset (contents t ++ [(new, choose criteria l r)]) new (choose criteria l r)) with (contents t ++ [(new, choose criteria l r)]).
    2:{ clear -Hfc. induction (contents t) as [|[m w] d IH]; cbn [app dset].
      - by rewrite decide_True.
      - rewrite fmap_cons in Hfc. apply not_elem_of_cons in Hfc as [Hm Hfc]. rewrite decide_False by done. by rewrite <- IH. }
    rewrite !list.filter_app. f_equal.
    - clear -Hfc. induction (contents t) as [|[m w] d IH]; [done|]. rewrite fmap_cons in Hfc. cbn [fst] in Hfc.
      apply not_elem_of_cons in Hfc as [Hm Hfc]. rewrite !filter_cons, IH by done. cbn [fst].
      destruct (decide (m ≠ left ∧ m ≠ right)).
      + rewrite decide_True by (by right). done.
      + rewrite decide_False by naive_solver. done.
    - rewrite !filter_cons, filter_nil. cbn [fst]. rewrite decide_True by done. rewrite decide_True by (by left). done.
  Qed.

  Lemma where_pages t criteria left right new n :
    rect n (contents t) → length criteria = n → 1 < ps → ps < Z.of_nat n → left ∈ t.*1 → right ∈ t.*1 →
    ∃ t' uq, where_ ty promote ps t criteria left right new = (Err ValueError, t') ∧ uq ∉ t.*1 ∧ contents t' = contents t ++ [(uq, [])].
  Proof.
    intros Hrect Hc H1 Hn Hl Hr. unfold where_.
    destruct (unique_name_spec new t.*1) as (uq & Huq & Hfr & _). rewrite Huq. cbv zeta.
    destruct (page_steps_first ps (zlen criteria)) as [rest ->]; [lia|lia|]. cbn [where_loop].
    assert (Hg : ∀ m, m ∈ t.*1 → ∃ c, dget (dset t uq []) m = Some c ∧ length (col_iter c) = n).
    { intros m Hm. destruct (dget_in t m Hm) as [c Hcc]. exists c. rewrite dget_dset, decide_False by congruence. split; [done|].
      unfold rect in Hrect. clear -Hrect Hcc. induction t as [|[k d] t IH]; [done|]. cbn [dget] in Hcc. cbn [contents map] in Hrect.
      apply list.Forall_cons in Hrect as [Hk Hrect]. case_decide; [|by apply IH]. injection Hcc as ->. done. }
    destruct (Hg left Hl) as (cl & El & Ll). destruct (Hg right Hr) as (cr & Er & Lr).
    rewrite (page_values_ok _ _ _ _ _ El), (page_values_ok _ _ _ _ _ Er) by lia. cbn [res_bind]. rewrite !drop_0.
    rewrite np_where_err.
    2,3: rewrite take_length; lia. 2: lia.
    eexists _, uq. split; [done|]. split; [done|]. rewrite contents_dset, dset_fresh; [done|].
    change ((contents t).*1) with (names (contents t)). by rewrite contents_names.
  Qed.
End proofs.
