(** Proofs for Props/JoinMerge.v. *)
From stdpp Require Import strings.
From Verif.Spec Require Import Counts Rows Join Merge.
From Verif.Spec Require Export TableTerms.
From Verif.Model Require Import JoinMerge.
From Verif.Proof Require Import DictLemmas SliceLemmas ColumnRead ColumnWrite ColumnMisc SmallProofs NamesProofs
  TableBase TableProofs TableRows TableSelect TableMisc JoinBase JoinProofs JoinFinal MergeProofs MatchProofs.
From Coq Require Import ZifyBool.
Local Open Scope Z_scope.

Definition part {X} (s e : Z) (l : list X) : list X := drop (Z.to_nat s) (take (Z.to_nat e) l).

Lemma part_choose {A} s e B (L R : list A) : choose (part s e B) (part s e L) (part s e R) = part s e (choose B L R).
Proof.
  unfold choose, part. revert s B L R. generalize (Z.to_nat e). intros k s. generalize (Z.to_nat s). clear. intros i B L R.
  revert i B L R. induction k as [|k IH]; intros i B L R.
  { rewrite !take_0, !drop_nil. done. }
  destruct B as [|b B]; [cbn [zip_with]; by rewrite !take_nil, !drop_nil|].
  destruct L as [|x L]; [cbn [zip zip_with]; rewrite !take_nil, !drop_nil; cbn [zip zip_with]; by rewrite !zip_with_nil_r, ?take_nil, ?drop_nil|].
  destruct R as [|y R]; [cbn [zip zip_with]; rewrite !take_nil, !drop_nil, !zip_with_nil_r, ?take_nil, ?drop_nil; by rewrite ?zip_with_nil_r|].
  destruct i as [|i]; cbn.
  - f_equal. apply (IH 0%nat).
  - apply IH.
Qed.
Lemma part_length {X Y} s e (l : list X) (k : list Y) : length l = length k → length (part s e l) = length (part s e k).
Proof. intros H. unfold part. rewrite !drop_length, !take_length. lia. Qed.
Lemma choose_length {A} B (L R : list A) n : length B = n → length L = n → length R = n → length (choose B L R) = n.
Proof. intros. unfold choose. rewrite zip_with_length, zip_with_length. lia. Qed.

Lemma dset_twice {V} (d : list (string * V)) n v w : dset (dset d n v) n w = dset d n w.
Proof.
  induction d as [|[m x] d IH]; cbn [dset].
  - by rewrite decide_True.
  - case_decide; cbn [dset]; [by rewrite decide_True|]. rewrite decide_False by done. by rewrite IH.
Qed.

Lemma filter_all {X} (P : X → Prop) `{∀ x, Decision (P x)} (l : list X) : (∀ x, x ∈ l → P x) → filter P l = l.
Proof.
  induction l as [|x l IH]; intros HP; [done|]. rewrite filter_cons_True by (apply HP; by left). f_equal. apply IH. intros. apply HP. by right.
Qed.

Section merge.
  Context {A T : Type} `{EqDecision T} (ty : A → T) (none : A) (ps : Z).
  Context (ps_pos : 0 < ps).
  Notation tbl := (table string A T).
  Notation task := (string * string * (Z * Z))%type.

  Lemma mp_where_ok (r0 : tbl) B l r cl cr s e : dget r0 l = Some cl → dget r0 r = Some cr →
    length (col_iter cl) = length B → length (col_iter cr) = length B → 0 <= s → 0 <= e →
    mp_where ty ps r0 (col_new (λ _, tt) ps B) l r (s, e) = Ok (part s e (choose B (col_iter cl) (col_iter cr))).
  Proof using ps_pos.
    intros Hl Hr H1 H2 Hs He. unfold mp_where. rewrite col_getslice_pos by done. cbn [res_bind fst snd].
    rewrite getslice_between by done. rewrite (page_values_ok r0 l cl), (page_values_ok r0 r cr) by done. cbn [res_bind].
    unfold col_new at 1. rewrite (col_extend_iter (λ _, tt)) by done. cbn [col_iter map concat app].
    rewrite np_where_same by (by apply part_length). cbn [res_bind]. rewrite getslice_full.
    unfold col_new. rewrite col_extend_iter by done. cbn [col_iter map concat app]. f_equal. rewrite map_id. apply part_choose.
  Qed.

  Definition cells (r0 : tbl) (n : string) : list A := default [] (dget (contents r0) n).
  Definition task_result (r0 : tbl) B (x : task) : list A := part x.2.1 x.2.2 (choose B (cells r0 x.1.1) (cells r0 x.1.2)).
  Lemma cells_col (r0 : tbl) n : n ∈ r0.*1 → ∃ c, dget r0 n = Some c ∧ cells r0 n = col_iter c.
  Proof using. intros Hn. destruct (dget_in r0 n Hn) as [c Hc]. exists c. unfold cells. by rewrite contents_dget, Hc. Qed.
  Lemma cells_length (r0 : tbl) n k : rect k (contents r0) → n ∈ r0.*1 → length (cells r0 n) = k.
  Proof using. intros Hr Hn. destruct (cells_col r0 n Hn) as (c & Hc & ->). by eapply rect_dget. Qed.

  Lemma run_tasks_ok (r0 : tbl) B tasks : rect (length B) (contents r0) →
    Forall (λ x : task, x.1.1 ∈ r0.*1 ∧ x.1.2 ∈ r0.*1 ∧ 0 <= x.2.1 ∧ 0 <= x.2.2) tasks →
    run_tasks ty ps r0 (col_new (λ _, tt) ps B) tasks = Ok (map (task_result r0 B) tasks).
  Proof using ps_pos.
    intros Hr. induction 1 as [|[[l r] [s e]] tasks (H1 & H2 & H3 & H4) _ IH]; [done|]. cbn [run_tasks]. cbn [fst snd] in *.
    destruct (cells_col r0 l H1) as (cl & Hl & El). destruct (cells_col r0 r H2) as (cr & Hc & Er).
    rewrite (mp_where_ok r0 B l r cl cr); try done; [|by eapply rect_dget..]. cbn [res_bind]. rewrite IH. cbn [res_map map].
    unfold task_result at 2. cbn [fst snd]. by rewrite El, Er.
  Qed.

  Lemma put_block W l r rounds len : ∀ (x : tbl) e tasks results, l ∈ x.*1 → NoDup x.*1 →
    zlen (cells x l) = len → zlen W = len → 0 <= e <= len → len - e < ps * Z.of_nat rounds →
    ∃ x', put_results ty ps x (map (λ st, (l, r, st)) (step_loop rounds ps len e) ++ tasks)
            (map (λ st : Z * Z, part st.1 st.2 W) (step_loop rounds ps len e) ++ results) = put_results ty ps x' tasks results ∧
      contents x' = dset (contents x) l (take (Z.to_nat e) (cells x l) ++ drop (Z.to_nat e) W).
  Proof using ps_pos.
    induction rounds as [|rounds IH]; intros x e tasks results Hl Hnd Hx HW He Hr; [lia|].
    destruct (cells_col x l Hl) as (c & Hc & Ec). set (e' := Z.min (e + ps) len).
    set (c1 := setitem_insert ty ps c (Slice (Some e) (Some e') None) (part e e' W)).
    assert (Hc1 : col_iter c1 = take (Z.to_nat e) (col_iter c) ++ part e e' W ++ drop (Z.to_nat e') (col_iter c)).
    { unfold c1. rewrite setitem_insert_spec by done. unfold py_setslice, slice_indices, sl_stepv. cbn [sl_start sl_stop sl_step].
      cbv zeta beta iota. change (default 1 None <? 0) with false. cbv iota. rewrite Ec in Hx. rewrite Hx.
      destruct (Z.ltb_spec e 0); [lia|]. destruct (Z.ltb_spec e' 0); [lia|].
      replace (Z.min e len) with e by lia. replace (Z.min e' len) with e' by lia. replace (Z.max e e') with e' by lia. done. }
    assert (Hcx : contents (dset x l c1) = dset (contents x) l (col_iter c1)) by apply contents_dset.
    assert (Hcl : cells (dset x l c1) l = col_iter c1).
    { unfold cells. rewrite Hcx, dget_dset. by rewrite decide_True. }
    cbn [step_loop]. fold e'. cbn [map app put_results fst snd]. rewrite Hc. fold c1.
    destruct (Z.eqb_spec e' len) as [E|E].
    - exists (dset x l c1). split; [done|]. rewrite Hcx, Hc1, Ec. f_equal. f_equal.
      rewrite Ec in Hx. rewrite (drop_ge (col_iter c)) by lia. rewrite app_nil_r. unfold part.
      by rewrite (take_ge W) by lia.
    - destruct (IH (dset x l c1) e' tasks results) as (x' & H1 & H2).
      + rewrite dset_keys. case_decide; [done|]. apply elem_of_app. right. by left.
      + by apply dset_NoDup.
      + rewrite Hcl, Hc1. rewrite Ec in Hx. unfold part. rewrite !app_length, take_length, !drop_length, take_length. lia.
      + done.
      + lia.
      + lia.
      + exists x'. split; [exact H1|]. rewrite H2, Hcx, Hcl, Hc1, Ec. rewrite Ec in Hx.
        rewrite dset_twice. f_equal.
        rewrite app_assoc, (take_app_alt (take (Z.to_nat e) (col_iter c) ++ part e e' W)).
        2:{ unfold part. rewrite app_length, take_length, drop_length, take_length. lia. }
        rewrite <- app_assoc. f_equal. unfold part.
        transitivity (drop (Z.to_nat e) (take (Z.to_nat e') W) ++ drop (Z.to_nat e - Z.to_nat e') (drop (Z.to_nat e') W)).
        * replace (Z.to_nat e - Z.to_nat e')%nat with 0%nat by lia. by rewrite drop_0.
        * replace (Z.to_nat e - Z.to_nat e')%nat with (Z.to_nat e - length (take (Z.to_nat e') W))%nat by (rewrite take_length; lia).
          rewrite <- skipn_app. by rewrite take_drop.
  Qed.

  Lemma contents_fst (x : tbl) : (contents x).*1 = x.*1.
  Proof using. exact (contents_names x). Qed.
  Definition replaced (r0 : tbl) B (lkeys rns : list string) (c : string * list A) : string * list A :=
    (c.1, match partner lkeys rns c.1 with Some r => choose B (cells r0 c.1) (cells r0 r) | None => c.2 end).

  Lemma partner_notin lkeys rns n : n ∉ lkeys → partner lkeys rns n = None.
  Proof using.
    revert rns. induction lkeys as [|l lkeys IH]; intros [|r rns] Hn; [done..|]. cbn [partner].
    apply not_elem_of_cons in Hn as [H1 H2]. rewrite decide_False by done. by apply IH.
  Qed.

  Lemma put_keys (r0 : tbl) B lkeys rns : rect (length B) (contents r0) → ∀ x : tbl,
    NoDup x.*1 → x.*1 = r0.*1 → rect (length B) (contents x) → NoDup lkeys → length lkeys = length rns →
    (∀ k, k ∈ lkeys → k ∈ r0.*1) → (∀ k, k ∈ rns → k ∈ r0.*1) →
    let tasks := concat (map (λ k, map (λ st, (k.1, k.2, st)) (page_steps ps (zlen B))) (zip lkeys rns)) in
    ∃ x', put_results ty ps x tasks (map (task_result r0 B) tasks) = Ok x' ∧ contents x' = map (replaced r0 B lkeys rns) (contents x).
  Proof using ps_pos.
    intros Hr0. revert rns. induction lkeys as [|l lkeys IH]; intros [|r rns] x Hnd Hn Hr Hl Hlen Hk1 Hk2; try done; cbn zeta.
    - exists x. split; [done|]. symmetry. rewrite <- (map_id (contents x)) at 2. apply map_ext. by intros [].
    - apply list.NoDup_cons in Hl as [Hl1 Hl2].
      assert (Hlr : l ∈ r0.*1) by (apply Hk1; by left). assert (Hrr : r ∈ r0.*1) by (apply Hk2; by left).
      set (W := choose B (cells r0 l) (cells r0 r)).
      assert (HW : length W = length B) by (apply choose_length; [done|by apply cells_length..]).
      cbn [zip zip_with map concat fst snd]. rewrite map_app, map_map.
      change (map (λ x0, task_result r0 B (l, r, x0)) (page_steps ps (zlen B)))
        with (map (λ st : Z * Z, part st.1 st.2 W) (page_steps ps (zlen B))).
      unfold page_steps at 1 2.
      assert (zlen B - 0 < ps * Z.of_nat (length (py_range 0 (zlen B + 1) ps))) as Hro.
      { rewrite py_range_length. unfold range_count. assert ((0 <? ps) = true) as -> by lia.
        rewrite Z2Nat.id by (apply Z.div_pos; lia). Z.div_mod_to_equations. nia. }
      edestruct (put_block W l r (length (py_range 0 (zlen B + 1) ps)) (zlen B) x 0) as (x1 & E1 & E2).
      { by rewrite Hn. } { done. } { f_equal. apply cells_length; [done|by rewrite Hn]. } { lia. } { lia. } { exact Hro. }
      rewrite E1. cbn [Z.to_nat take drop app] in E2. clear E1.
      rewrite take_0, drop_0 in E2. cbn [app] in E2.
      assert (Hx1 : x1.*1 = r0.*1).
      { rewrite <- contents_fst, E2. rewrite dset_keys. rewrite decide_True; [|by rewrite contents_fst, Hn].
        by rewrite contents_fst. }
      destruct (IH rns x1) as (x' & E3 & E4).
      + by rewrite Hx1, <- Hn.
      + done.
      + rewrite E2. unfold rect. apply list.Forall_forall. intros c Hc.
        rewrite dset_replace in Hc; [|by rewrite contents_fst, Hn|by rewrite contents_fst].
        apply elem_of_list_fmap in Hc as ([m d] & -> & Hd). cbn [fst]. case_decide; [done|].
        by apply (proj1 (list.Forall_forall _ _) Hr (m, d)).
      + done.
      + by injection Hlen.
      + intros k Hk. apply Hk1. by right.
      + intros k Hk. apply Hk2. by right.
      + exists x'. split; [exact E3|]. rewrite E4, E2.
        rewrite dset_replace; [|by rewrite contents_fst, Hn|by rewrite contents_fst].
        rewrite map_map. apply map_ext. intros [m d]. unfold replaced. cbn [fst snd partner].
        destruct (decide (m = l)) as [-> |Hne]; cbn [fst snd].
        * rewrite decide_True by done. by rewrite partner_notin.
        * rewrite decide_False by done. done.
  Qed.

  Lemma del_keys_ok (t : tbl) rkeys : ∀ x : tbl, NoDup (map (right_key_name t) rkeys) → (∀ k, k ∈ rkeys → right_key_name t k ∈ x.*1) →
    ∃ x', del_keys t rkeys x = Ok x' ∧ contents x' = filter (λ c, c.1 ∉ map (right_key_name t) rkeys) (contents x).
  Proof using ty none.
    induction rkeys as [|k rkeys IH]; intros x Hnd Hin.
    - exists x. split; [done|]. symmetry. apply (filter_all (λ c : string * list A, c.1 ∉ map (right_key_name t) [])).
      intros. apply not_elem_of_nil.
    - cbn [map] in Hnd. apply list.NoDup_cons in Hnd as [Hk Hnd]. cbn [del_keys].
      rewrite tbl_del_ok by (apply Hin; by left). cbn [res_bind].
      destruct (IH (ddel x (right_key_name t k))) as (x' & E1 & E2); [done| |].
      + intros k' Hk'. destruct (dget_in x (right_key_name t k') ltac:(apply Hin; by right)) as [c Hc].
        apply (dget_elem _ _ c). rewrite dget_ddel, decide_False; [done|]. intros E. apply Hk.
        rewrite <- E. by apply elem_of_list_fmap_1.
      + exists x'. split; [done|]. rewrite E2, contents_ddel. unfold ddel.
        etransitivity; [exact (list_filter_filter (λ c : string * list A, c.1 ∉ map (right_key_name t) rkeys) (λ c, c.1 ≠ right_key_name t k) (contents x))|].
        apply (list_filter_iff (A := string * list A)). intros c. cbn [map]. rewrite not_elem_of_cons. tauto.
  Qed.

  (** the whole of step 5 *)
  Lemma merge_step_ok kind (t r0 : tbl) pairs lkeys rkeys : NoDup r0.*1 → rect (length pairs) (contents r0) →
    lkeys ≠ [] → NoDup lkeys → length lkeys = length rkeys → NoDup (map (right_key_name t) rkeys) →
    (∀ k, k ∈ lkeys → k ∈ r0.*1) → (∀ k, k ∈ rkeys → right_key_name t k ∈ r0.*1) →
    ∃ x, merge_step ty ps kind t pairs lkeys rkeys r0 = Ok x ∧
      contents x = filter (λ c, c.1 ∉ map (right_key_name t) rkeys)
        (match kind with
         | Outer | Left => map (replaced r0 (boolean_map kind pairs) lkeys (map (right_key_name t) rkeys)) (contents r0)
         | _ => contents r0
         end).
  Proof using ty none ps_pos.
    intros Hnd Hr Hne Hl Hlen Hrn H1 H2. unfold merge_step.
    assert (Hcase : kind = Inner ∨ kind = Cross ∨ kind = Outer ∨ kind = Left) by (destruct kind; tauto).
    destruct Hcase as [-> |[-> |Hk]]; [cbn [res_bind]; by apply del_keys_ok..|].
    set (rns := map (right_key_name t) rkeys) in *. set (B := boolean_map kind pairs).
    assert (HB : length B = length pairs) by (unfold B, boolean_map; destruct kind; apply map_length).
    assert (Hrns : length rns = length rkeys) by apply map_length.
    assert (Ht : where_tasks ps t (zlen pairs) lkeys rkeys = concat (map (λ k, map (λ st, (k.1, k.2, st)) (page_steps ps (zlen B))) (zip lkeys rns))).
    { unfold where_tasks, rns. rewrite HB. clear. revert rkeys. induction lkeys as [|l lkeys IH]; intros [|r rkeys]; [done..|]. cbn. by rewrite IH. }
    assert (Hrns2 : ∀ k, k ∈ rns → k ∈ r0.*1) by (intros k (k' & -> & Hk')%elem_of_list_fmap; by apply H2).
    destruct (put_keys r0 B lkeys rns) with (x := r0) as (x1 & E1 & E2); try done; try (by rewrite HB); try lia.
    rewrite <- Ht in E1.
    assert (Hrun : run_tasks ty ps r0 (col_new (λ _, tt) ps B) (where_tasks ps t (zlen pairs) lkeys rkeys)
      = Ok (map (task_result r0 B) (where_tasks ps t (zlen pairs) lkeys rkeys))).
    { apply run_tasks_ok; [by rewrite HB|]. rewrite Ht. apply list.Forall_forall. intros x Hx.
      apply elem_concat_map in Hx as ([l r] & Hlr & (st & -> & Hst)%elem_of_list_fmap). cbn [fst snd].
      pose proof (elem_of_zip_l _ _ _ _ Hlr). pose proof (elem_of_zip_r _ _ _ _ Hlr).
      split; [by apply H1|]. split; [by apply Hrns2|].
      assert (Forall (λ p : Z * Z, 0 <= p.1 ∧ 0 <= p.2) (page_steps ps (zlen B))) as Hs.
      { unfold page_steps. generalize (length (py_range 0 (zlen B + 1) ps)). intros k.
        assert (∀ e, 0 <= e → Forall (λ p : Z * Z, 0 <= p.1 ∧ 0 <= p.2) (step_loop k ps (zlen B) e)) as Hall; [|by apply Hall].
        revert ps_pos. clear. intros Hps.
        induction k as [|k IH]; intros e He; cbn [step_loop]; constructor; cbn [fst snd]; [lia|].
        destruct (_ =? _); [constructor|]. apply IH. lia. }
      by apply (proj1 (list.Forall_forall _ _) Hs). }
    assert (Hx1 : x1.*1 = r0.*1).
    { rewrite <- !contents_fst, E2. change (map ?h ?l) with (h <$> l). rewrite <- list_fmap_compose. done. }
    destruct (del_keys_ok t rkeys x1) as (x & E3 & E4); [done|by rewrite Hx1|].
    exists x. rewrite E4, E2. split; [|by destruct Hk as [-> | ->]]. rewrite <- E3.
    destruct Hk as [-> | ->]; cbn [res_bind]; rewrite bool_decide_eq_false_2 by done; fold B; rewrite Hrun; cbn [res_bind]; by rewrite E1.
  Qed.
End merge.

Lemma zip_inj {X Y} (l : list X) (k : list Y) a b c : NoDup k → (a, c) ∈ zip l k → (b, c) ∈ zip l k → a = b.
Proof.
  intros Hk [i Hi]%elem_of_list_lookup [j Hj]%elem_of_list_lookup.
  apply lookup_zip_with_Some in Hi as (? & ? & [= <- <-] & Hi1 & Hi2). apply lookup_zip_with_Some in Hj as (? & ? & [= <- <-] & Hj1 & Hj2).
  rewrite (NoDup_lookup k i j c Hk Hi2 Hj2) in Hi1. congruence.
Qed.
Lemma zip_elem {X Y} (l : list X) (k : list Y) a : length k = length l → a ∈ l → ∃ b, (a, b) ∈ zip l k.
Proof.
  intros Hl [i Hi]%elem_of_list_lookup. destruct (lookup_lt_is_Some_2 k i) as [b Hb].
  { rewrite Hl. by eapply lookup_lt_Some. }
  exists b. apply elem_of_list_lookup. exists i. rewrite lookup_zip_with, Hi, Hb. done.
Qed.

Lemma given_name {A T} (t : table string A T) k g : fresh_names t.*1 [k] [g] → right_key_name t k = g.
Proof.
  cbn [fresh_names]. intros (H1 & H2 & H3 & _). unfold right_key_name.
  destruct (unique_name_spec k t.*1) as (n & -> & Hn & [[Hk ->]|[Hk (j & Hj1 & -> & Hj2)]]); cbn.
  - symmetry. by apply H2.
  - destruct (H3 Hk) as (i & Hi1 & -> & Hi2). change (numbered k j = numbered k i). f_equal.
    destruct (N.lt_trichotomy i j) as [Hlt|[->|Hlt]]; [|done|].
    + exfalso. apply H1. apply (Hj2 i). lia.
    + exfalso. apply Hn. apply (Hi2 j). lia.
Qed.

Section final.
  Context {A T : Type} `{EqDecision T} (ty : A → T) (none : A) (ps : Z).
  Context (ps_pos : 0 < ps).
  Notation tbl := (table string A T).
  Notation pair_ := (option Z * option Z)%type.

  Lemma columns_form (lc ns rc : list string) (f g : string → pair_ → A) (pairs : list pair_) : length ns = length rc →
    zip_with (λ n h, (n, map h pairs)) (lc ++ ns) (map f lc ++ map g rc) =
    map (λ l, (l, map (f l) pairs)) lc ++ map (λ x, (x.2, map (g x.1) pairs)) (zip rc ns).
  Proof using.
    intros Hl. rewrite zip_with_app by (by rewrite map_length). f_equal.
    - clear. induction lc as [|l lc IH]; [done|]. cbn. by rewrite IH.
    - revert ns Hl. induction rc as [|r rc IH]; intros [|n ns] Hl; [done..|]. cbn. rewrite <- IH; [done|]. by injection Hl.
  Qed.

  Lemma choose_map B (f g : pair_ → A) pairs : choose (map B pairs) (map f pairs) (map g pairs) = map (λ p, if B p : bool then f p else g p) pairs.
  Proof using. unfold choose. induction pairs as [|p pairs IH]; [done|]. cbn. by rewrite IH. Qed.

  Lemma merged_result kind (t u r0 : tbl) n m lkeys rkeys lc rc ns pairs :
    NoDup (lc ++ ns) → fresh_names lc rc ns → lc ≠ [] →
    contents r0 = zip_with (λ n f, (n, map f pairs)) (lc ++ ns)
      (map (λ name p, ofield none (contents t) name p.1) lc ++ map (λ name p, ofield none (contents u) name p.2) rc) →
    lkeys ≠ [] → NoDup lkeys → NoDup rkeys → length lkeys = length rkeys →
    (∀ k, k ∈ lkeys → k ∈ lc) → (∀ k, k ∈ rkeys → k ∈ rc) →
    (∀ k g, (k, g) ∈ zip rc ns → k ∈ rkeys → fresh_names t.*1 [k] [g]) →
    Forall (ok_pair n m) pairs →
    (kind = Inner ∨ kind = Cross → Forall (λ p : pair_, p.1 ≠ None ∧ p.2 ≠ None) pairs) →
    ∃ x, merge_step ty ps kind t (map enc pairs) lkeys rkeys r0 = Ok x ∧
      keys_merged none (match kind with Left => true | _ => false end) (contents t) (contents u) lkeys rkeys lc rc pairs (contents x).
  Proof using ty ps_pos.
    intros Hnd Hf Hlc Hc Hne Hlk Hrk Hlen H1 H2 Hname Hok Hsome.
    pose proof (fresh_names_length lc rc ns Hf) as Hns. rewrite columns_form in Hc by done.
    pose proof Hnd as Hnd'. apply list.NoDup_app in Hnd' as (Hndl & Hdisj & Hndn).
    assert (Hnames : r0.*1 = lc ++ ns).
    { rewrite <- contents_fst, Hc, fmap_app. change (map ?h ?l) with (h <$> l). rewrite <- !list_fmap_compose. f_equal.
      - clear. induction lc as [|l lc IH]; [done|]. cbn. by rewrite IH.
      - clear -Hns. revert ns Hns. induction rc as [|r rc IH]; intros [|g ns] Hns; [done..|]. cbn. f_equal. apply IH. by injection Hns. }
    assert (Hg : ∀ k, k ∈ rkeys → (k, right_key_name t k) ∈ zip rc ns).
    { intros k Hk. destruct (zip_elem rc ns k Hns (H2 k Hk)) as [g Hg]. by rewrite (given_name t k g (Hname k g Hg Hk)). }
    assert (Hrect : rect (length pairs) (contents r0)).
    { rewrite Hc. apply Forall_app. split; apply Forall_fmap, list.Forall_forall; intros; cbn; apply map_length. }
    assert (Hcl : ∀ l, l ∈ lc → cells r0 l = map (λ p, ofield none (contents t) l p.1) pairs).
    { intros l Hl. unfold cells. assert (dget (contents r0) l = Some (map (λ p, ofield none (contents t) l p.1) pairs)) as ->; [|done].
      apply dget_Some; [by rewrite contents_fst, Hnames|]. rewrite Hc. apply elem_of_app. left.
      apply elem_of_list_fmap. by exists l. }
    assert (Hcr : ∀ k g, (k, g) ∈ zip rc ns → cells r0 g = map (λ p, ofield none (contents u) k p.2) pairs).
    { intros k g Hk. unfold cells. assert (dget (contents r0) g = Some (map (λ p, ofield none (contents u) k p.2) pairs)) as ->; [|done].
      apply dget_Some; [by rewrite contents_fst, Hnames|]. rewrite Hc. apply elem_of_app. right.
      apply elem_of_list_fmap. by exists (k, g). }
    destruct (merge_step_ok ty none ps ps_pos kind t r0 (map enc pairs) lkeys rkeys) as (x & E1 & E2); try done.
    { by rewrite Hnames. }
    { by rewrite map_length. }
    { apply (NoDup_fmap_2_strong (right_key_name t)); [|done]. intros a b Ha Hb Hab.
      pose proof (Hg a Ha) as Hga. rewrite Hab in Hga. exact (zip_inj _ _ _ _ _ Hndn Hga (Hg b Hb)). }
    { intros k Hk. rewrite Hnames. apply elem_of_app. left. by apply H1. }
    { intros k Hk. rewrite Hnames. apply elem_of_app. right. eapply elem_of_zip_r. by apply Hg. }
    exists x. split; [done|]. exists ns. split; [done|]. split; [done|].
    set (F := λ (l : string) (p : pair_), match partner lkeys rkeys l with
              | Some r => merged_key none (match kind with Left => true | _ => false end) (contents t) (contents u) l r p
              | None => ofield none (contents t) l p.1 end).
    assert (Hpart : ∀ l r, partner lkeys rkeys l = Some r → r ∈ rkeys).
    { clear. revert rkeys. induction lkeys as [|a lkeys IH]; intros [|b rkeys] l r Hp; try done. cbn in Hp.
      case_decide; [injection Hp as ->; by left|right; by eapply IH]. }
    assert (Hpm : ∀ l, partner lkeys (map (right_key_name t) rkeys) l = right_key_name t <$> partner lkeys rkeys l).
    { clear. revert rkeys. induction lkeys as [|a lkeys IH]; intros [|b rkeys] l; try done. cbn. case_decide; [done|]. apply IH. }
    assert (Hx : contents x = map (λ l, (l, map (F l) pairs)) lc ++
      map (λ x, (x.2, map (λ p : pair_, ofield none (contents u) x.1 p.2) pairs)) (filter (λ x, x.1 ∉ rkeys) (zip rc ns))).
    { rewrite E2.
      assert (Hm : match kind with
         | Outer | Left => map (replaced r0 (boolean_map kind (map enc pairs)) lkeys (map (right_key_name t) rkeys)) (contents r0)
         | _ => contents r0 end = map (λ l, (l, map (F l) pairs)) lc ++
           map (λ x, (x.2, map (λ p : pair_, ofield none (contents u) x.1 p.2) pairs)) (zip rc ns)).
      { destruct kind.
        1, 4: rewrite Hc; f_equal; apply map_ext_in; intros l Hl%elem_of_list_In; f_equal; apply map_ext_in;
          intros [a b] Hp%elem_of_list_In; pose proof (proj1 (list.Forall_forall _ _) (Hsome ltac:(tauto)) _ Hp) as [Ha Hb];
          unfold F; destruct (partner lkeys rkeys l); [|done]; unfold merged_key; cbn [fst snd] in *; by destruct a, b.
        all: rewrite Hc, map_app, !map_map; f_equal; apply map_ext_in; [intros l Hl%elem_of_list_In|intros [k g] Hkg%elem_of_list_In];
          unfold replaced; cbn [fst snd].
        2, 4: rewrite partner_notin; [done|]; intros Hgl; apply (Hdisj g); [by apply H1|by eapply elem_of_zip_r].
        all: f_equal; rewrite Hpm; unfold F; destruct (partner lkeys rkeys l) as [r|] eqn:Hr; cbn [fmap option_fmap option_map]; [|done].
        all: apply Hpart in Hr; rewrite (Hcl l Hl), (Hcr r _ (Hg r Hr)); unfold boolean_map; rewrite map_map, choose_map;
          apply map_ext_in; intros [a b] Hp%elem_of_list_In; pose proof (proj1 (list.Forall_forall _ _) Hok _ Hp) as [Ha Hb];
          cbn [fst snd enc] in *; unfold merged_key; cbn [fst snd].
        - destruct b as [j|]; cbn [default ok_pos id] in *.
          + destruct (Z.eqb_spec j (-1)); [lia|]. by destruct a.
          + cbn. by destruct a.
        - destruct a as [i|]; cbn [default ok_pos id] in *.
          + destruct (Z.eqb_spec i (-1)); [lia|]. cbn. by destruct b.
          + done. }
      rewrite Hm. etransitivity; [exact (list.filter_app (λ c : string * list A, c.1 ∉ map (right_key_name t) rkeys) _ _)|]. f_equal.
      - apply (filter_all (λ c : string * list A, c.1 ∉ map (right_key_name t) rkeys)).
        intros c (l & -> & Hl)%elem_of_list_fmap. cbn [fst]. intros (k & -> & Hk)%elem_of_list_fmap.
        apply (Hdisj _ Hl). eapply elem_of_zip_r. by apply Hg.
      - assert (Hiff : ∀ k g, (k, g) ∈ zip rc ns → g ∉ map (right_key_name t) rkeys ↔ k ∉ rkeys).
        { intros k g Hkg. split.
          - intros Hn Hk. apply Hn. rewrite <- (given_name t k g (Hname k g Hkg Hk)). by apply elem_of_list_fmap_1.
          - intros Hn (k' & -> & Hk')%elem_of_list_fmap. apply Hn. by rewrite (zip_inj _ _ _ _ _ Hndn Hkg (Hg k' Hk')). }
        revert Hiff. clear. generalize (zip rc ns). intros l Hiff. induction l as [|[k g] l IH]; [done|].
        cbn [map]. rewrite !filter_cons. cbn [fst snd]. rewrite IH by (intros; apply Hiff; by right).
        pose proof (Hiff k g ltac:(by left)). do 2 case_decide; try tauto. }
    set (z := filter (λ x, x.1 ∉ rkeys) (zip rc ns)) in *.
    assert (Hz1 : z.*1 = filter (λ n, n ∉ rkeys) rc).
    { unfold z. clear -Hns. revert ns Hns. induction rc as [|r rc IH]; intros [|g ns] Hns; [done..|]. cbn [zip zip_with].
      rewrite !filter_cons. cbn [fst]. injection Hns as Hns. case_decide; cbn; rewrite IH by done; done. }
    assert (Hzz : zip z.*1 z.*2 = z) by apply zip_fst_snd.
    rewrite Hx. rewrite <- Hzz at 1. rewrite <- (columns_form lc z.*2 z.*1 F (λ name p, ofield none (contents u) name p.2)) by (by rewrite !fmap_length).
    split.
    - apply zip_names. rewrite !app_length, ?map_length, ?fmap_length. done.
    - rewrite <- Hzz, <- (columns_form lc z.*2 z.*1 F (λ name p, ofield none (contents u) name p.2)) by (by rewrite !fmap_length).
      rewrite rows_of_columns.
      + apply map_ext. intros p. rewrite map_app, !map_map. unfold merged_row. rewrite <- Hz1. change (map ?h z.*1) with (h <$> z.*1). by rewrite <- list_fmap_compose.
      + rewrite !app_length, ?map_length, ?fmap_length. done.
      + by destruct lc.
  Qed.
End final.

Section whole.
  Context {A T : Type} `{EqDecision T} (ty : A → T) (none : A) (ps : Z).
  Context (ps_pos : 0 < ps).
  Context {K : Type} `{EqDecision K} (keyc : A → K) (set_order : list (list K) → list (list K)).
  Notation tbl := (table string A T).
  Notation keys t ks n := (row_keys none keyc (contents t) ks n).

  Lemma mapping_ok kind (t u : tbl) n m lkeys rkeys lc rc :
    rect n (contents t) → rect m (contents u) → args_ok t u lkeys rkeys lc rc → lkeys ≠ [] → (∀ l, set_order l ≡ₚ l) →
    (kind = Outer → ∀ name c p, name ∈ lc → dget t name = Some c → p ∈ c → pdata p ≠ []) →
    (kind = Outer ∨ kind = Left → ∀ name c p, name ∈ rc → dget u name = Some c → p ∈ c → pdata p ≠ []) →
    (kind = Cross → (0 < n)%nat ∧ (0 < m)%nat) →
    ∃ pairs, join_mapping keyc set_order kind t u lkeys rkeys = Ok (map enc pairs) ∧
      pairs_of kind (keys t lkeys n) (keys u rkeys m) pairs ∧ Forall (ok_pair n m) pairs ∧
      side_ok t lc (map enc pairs).*1 ∧ side_ok u rc (map enc pairs).*2 ∧
      (kind = Inner ∨ kind = Cross → Forall (λ p : option Z * option Z, p.1 ≠ None ∧ p.2 ≠ None) pairs).
  Proof using ty.
    intros Ht Hu (Hl & Hk1 & Hk2 & Hlc & Hrc & Hc1 & Hc2 & Hnd) Hne Hso He1 He2 Hx.
    assert (Hi1 : tbl_index keyc t lkeys = Ok (index_keys (keys t lkeys n))) by (by apply tbl_index_list).
    assert (Hi2 : tbl_index keyc u rkeys = Ok (index_keys (keys u rkeys m))) by (apply tbl_index_list; [done|by destruct lkeys, rkeys|done]).
    unfold join_mapping. destruct kind.
    - rewrite Hi1, Hi2. cbn [res_bind]. rewrite inner_mapping_spec. eexists. split; [done|]. split; [done|].
      set (pairs := inner_pairs _ _).
      assert (Hok : Forall (ok_pair n m) pairs).
      { pose proof (inner_ok (keys t lkeys n) (keys u rkeys m)) as H. by rewrite !row_keys_length in H. }
      assert (Hs : Forall (λ p, p.1 ≠ None ∧ p.2 ≠ None) pairs) by apply inner_some.
      split; [done|]. split; [|split; [|done]].
      + right. eapply no_minus_fst; [done|]. eapply list.Forall_impl; [exact Hs|]. by intros ? [].
      + right. eapply no_minus_snd; [done|]. eapply list.Forall_impl; [exact Hs|]. by intros ? [].
    - rewrite Hi1, Hi2. cbn [res_bind]. rewrite left_mapping_spec. eexists. split; [done|]. split; [done|].
      set (pairs := left_pairs _ _).
      assert (Hok : Forall (ok_pair n m) pairs).
      { pose proof (left_ok (keys t lkeys n) (keys u rkeys m)) as H. by rewrite !row_keys_length in H. }
      assert (Hs : Forall (λ p : option Z * option Z, p.1 ≠ None) pairs) by apply left_some.
      split; [done|]. split; [|split; [|by intros [|]]].
      + right. by eapply no_minus_fst.
      + left. intros name c Hn Hc. apply list.Forall_forall. intros p. apply (He2 ltac:(tauto) name c); done.
    - rewrite Hi1, Hi2. cbn [res_bind].
      destruct (outer_mapping_spec set_order (keys t lkeys n) (keys u rkeys m) Hso) as (pairs & Hp & ->).
      exists pairs. split; [done|]. split; [done|].
      assert (Hok : Forall (ok_pair n m) pairs).
      { pose proof (outer_ok _ _ _ Hp) as H. by rewrite !row_keys_length in H. }
      split; [done|]. split; [|split; [|by intros [|]]].
      + left. intros name c Hn Hc. apply list.Forall_forall. intros p. apply (He1 ltac:(tauto) name c); done.
      + left. intros name c Hn Hc. apply list.Forall_forall. intros p. apply (He2 ltac:(tauto) name c); done.
    - destruct (Hx eq_refl) as [Hn Hm]. rewrite !tbl_len_spec.
      rewrite (nrows_rect _ n Ht), (nrows_rect _ m Hu).
      2:{ destruct u as [|p u]; [|done]. destruct rc as [|a rc]; [done|].
          specialize (Hc2 a ltac:(by left)). by apply elem_of_nil in Hc2. }
      2:{ destruct t as [|p t]; [|done]. destruct lc as [|a lc]; [done|].
          specialize (Hc1 a ltac:(by left)). by apply elem_of_nil in Hc1. }
      rewrite cross_mapping_spec by done. eexists. split; [done|].
      pose proof (cross_ok n m) as Hok. pose proof (cross_some n m) as Hs. cbn [pairs_of]. rewrite !row_keys_length.
      split; [done|]. split; [done|]. split; [|split; [|done]].
      + right. eapply no_minus_fst; [done|]. eapply list.Forall_impl; [exact Hs|]. by intros ? [].
      + right. eapply no_minus_snd; [done|]. eapply list.Forall_impl; [exact Hs|]. by intros ? [].
  Qed.

  Lemma join_with_plain kind (t u : tbl) lkeys rkeys lc rc :
    join_with ty none ps keyc set_order false kind t u lkeys rkeys lc rc = Joins.join ty none ps keyc set_order kind t u lkeys rkeys lc rc.
  Proof using.
    unfold join_with, Joins.join. destruct (jointype_check _ _ _ _ _ _); [|done]. cbn [res_bind].
    change (match kind with Cross => _ | _ => _ end) with (join_mapping keyc set_order kind t u lkeys rkeys).
    destruct (join_mapping _ _ _ _ _ _ _) as [pairs|]; [|done]. cbn [res_bind].
    destruct (join_left _ _ _ _ _ _ _ _) as [x|]; [|done]. cbn [res_bind].
    by destruct (join_right _ _ _ _ _ _ _ _).
  Qed.

  Theorem join_merged kind (t u : tbl) n m lkeys rkeys lc rc :
    rect n (contents t) → rect m (contents u) → args_ok t u lkeys rkeys lc rc → lkeys ≠ [] → (∀ l, set_order l ≡ₚ l) →
    NoDup lkeys → NoDup rkeys → (∀ k, k ∈ lkeys → k ∈ lc) → (∀ k, k ∈ rkeys → k ∈ rc) →
    (∀ given k g, fresh_names lc rc given → (k, g) ∈ zip rc given → k ∈ rkeys → fresh_names t.*1 [k] [g]) →
    (kind = Outer → ∀ name c p, name ∈ lc → dget t name = Some c → p ∈ c → pdata p ≠ []) →
    (kind = Outer ∨ kind = Left → ∀ name c p, name ∈ rc → dget u name = Some c → p ∈ c → pdata p ≠ []) →
    (kind = Cross → (0 < n)%nat ∧ (0 < m)%nat) →
    ∃ r pairs, join_with ty none ps keyc set_order true kind t u lkeys rkeys lc rc = Ok r ∧
      pairs_of kind (keys t lkeys n) (keys u rkeys m) pairs ∧
      keys_merged none (match kind with Left => true | _ => false end) (contents t) (contents u) lkeys rkeys lc rc pairs (contents r).
  Proof using ps_pos.
    intros Ht Hu Ha Hne Hso Hlk Hrk Hin1 Hin2 Hname He1 He2 Hx.
    destruct (mapping_ok kind t u n m lkeys rkeys lc rc) as (pairs & Hm & Hp & Hok & Hs1 & Hs2 & Hsome); try done.
    destruct Ha as (Hl & Hk1 & Hk2 & Hlc & Hrc & Hc1 & Hc2 & Hnd).
    destruct (join_columns ty none ps ps_pos t u n m lc rc pairs) as (r0 & ns & Hr0 & Hns & Hf & Hcon); try done.
    destruct (merged_result ty none ps ps_pos kind t u r0 n m lkeys rkeys lc rc ns pairs) as (x & E1 & E2); try done.
    { intros k g Hkg Hk. by apply (Hname ns k g). }
    exists x, pairs. split; [|done]. unfold join_with. rewrite jointype_check_ok by done. cbn [res_bind]. rewrite Hm. cbn [res_bind].
    cbv zeta in Hr0. destruct (join_left _ _ _ _ _ _ _ _) as [x1|]; [|done]. cbn [res_bind] in *. rewrite Hr0. cbn [res_bind]. exact E1.
  Qed.

End whole.

(** ** both rows of a pair have the key *)
Section agree.
  Context {K : Type} `{EqDecision K}.
  Definition agree (lk rk : list K) (p : option Z * option Z) : Prop :=
    ∀ i j, p.1 = Some i → p.2 = Some j → ∃ k, lk !! Z.to_nat i = Some k ∧ rk !! Z.to_nat j = Some k.
  Lemma occ_at (lk : list K) k i : Some i ∈ map Some (occ lk k) → lk !! Z.to_nat i = Some k.
  Proof.
    intros (i' & [= <-] & Hi)%elem_of_list_fmap. by apply occ_elem in Hi as [? ?].
  Qed.
  Lemma left_agree (lk rk : list K) : Forall (agree lk rk) (left_pairs lk rk).
  Proof.
    apply Forall_concat, Forall_fmap, Forall_true. intros k. apply list.Forall_forall.
    intros [x y] [Hx Hy]%elem_of_list_In%in_prod_iff i j Ei Ej. simpl in Ei, Ej. subst x y. apply elem_of_list_In in Hx, Hy.
    exists k. split; [by apply occ_at|]. apply occ_at. destruct (occ rk k); [|done].
    by apply elem_of_list_singleton in Hy.
  Qed.
  Lemma inner_agree (lk rk : list K) : Forall (agree lk rk) (inner_pairs lk rk).
  Proof.
    apply Forall_concat, Forall_fmap, Forall_true. intros k. apply list.Forall_forall.
    intros [x y] [Hx Hy]%elem_of_list_In%in_prod_iff i j Ei Ej. simpl in Ei, Ej. subst x y. apply elem_of_list_In in Hx, Hy.
    exists k. split; by apply occ_at.
  Qed.
  Lemma outer_agree (lk rk : list K) pairs : outer_pairs lk rk pairs → Forall (agree lk rk) pairs.
  Proof.
    intros (ks & _ & ->). apply list.Forall_app. split; [apply left_agree|].
    apply Forall_concat, Forall_fmap, Forall_true. intros k. simpl. apply Forall_fmap, Forall_true. by intros x i j [=].
  Qed.
  Lemma pairs_agree kind (lk rk : list K) pairs : kind ≠ Cross → pairs_of kind lk rk pairs → Forall (agree lk rk) pairs.
  Proof.
    intros Hk. destruct kind; cbn [pairs_of]; [intros ->; apply inner_agree|intros ->; apply left_agree|apply outer_agree|done].
  Qed.
End agree.

Theorem merged_key_agrees {A K : Type} `{EqDecision K} (none : A) (keyc : A → K) kind (v w : list (string * list A)) n m lkeys rkeys pairs :
  kind ≠ Cross → pairs_of kind (row_keys none keyc v lkeys n) (row_keys none keyc w rkeys m) pairs →
  ∀ prefer l r p, (l, r) ∈ zip lkeys rkeys → p ∈ pairs →
    (∀ i, p.1 = Some i → keyc (merged_key none prefer v w l r p) = keyc (field none v l (Z.to_nat i))) ∧
    (∀ j, p.2 = Some j → keyc (merged_key none prefer v w l r p) = keyc (field none w r (Z.to_nat j))).
Proof.
  intros Hk Hp prefer l r p Hlr Hin.
  pose proof (pairs_agree _ _ _ _ Hk Hp) as Ha. rewrite list.Forall_forall in Ha. specialize (Ha p Hin).
  assert (Hc : ∀ i j, p.1 = Some i → p.2 = Some j → keyc (field none v l (Z.to_nat i)) = keyc (field none w r (Z.to_nat j))).
  { intros i j Ei Ej. destruct (Ha i j Ei Ej) as (k & H1 & H2). unfold row_keys in H1, H2.
    apply list_lookup_fmap_Some in H1 as (i' & [-> Hi]%lookup_seq & ->).
    apply list_lookup_fmap_Some in H2 as (j' & [-> Hj]%lookup_seq & E). simpl in E.
    apply elem_of_list_lookup in Hlr as (q & Hq). apply lookup_zip_with_Some in Hq as (l' & r' & [= <- <-] & H1 & H2).
    apply (f_equal (λ x, x !! q)) in E. unfold row_key in E.
    change (map ?h lkeys) with (h <$> lkeys) in E. change (map ?h rkeys) with (h <$> rkeys) in E.
    rewrite !list_lookup_fmap, H1, H2 in E. simpl in E. congruence. }
  unfold merged_key. destruct p as [[i|] [j|]]; simpl in *; (split; intros x [= <-]); destruct prefer; try done; try (symmetry; by apply Hc); by apply Hc.
Qed.

(** ** when step 5 finds the names *)
Lemma names_apart (taken rc given : list string) :
  NoDup rc → (∀ k, k ∈ rc → k ∉ taken) → fresh_names taken rc given → given = rc.
Proof.
  revert taken given. induction rc as [|k rc IH]; intros taken [|g given] Hnd Hd; simpl; try done.
  intros (Hg & H1 & H2 & Hrest). apply list.NoDup_cons in Hnd as [Hk Hnd].
  assert (Hgk : g = k) by (apply H1, Hd; by left). subst g. f_equal. apply (IH (taken ++ [k])); [done| |done].
  intros k' Hk' [Ht|Ht]%elem_of_app; [by apply (Hd k'); [right|]|]. apply elem_of_list_singleton in Ht as ->. done.
Qed.
Lemma names_disjoint (columns lcols rcols rkeys : list string) :
  (∀ k, k ∈ lcols → k ∈ columns) → (∀ k, k ∈ rcols → k ∉ columns) → NoDup rcols →
  ∀ given k g, fresh_names lcols rcols given → (k, g) ∈ zip rcols given → k ∈ rkeys → fresh_names columns [k] [g].
Proof.
  intros Hl Hr Hnd given k g Hf Hin _.
  assert (given = rcols) as -> by (apply (names_apart lcols); [done| |done]; intros x Hx Hx'; by apply (Hr x); [|apply Hl]).
  apply elem_of_list_lookup in Hin as (q & Hq). apply lookup_zip_with_Some in Hq as (k' & g' & [= <- <-] & H1 & H2).
  assert (g = k) as -> by congruence. apply elem_of_list_lookup_2 in H1. specialize (Hr k H1).
  simpl. done.
Qed.
Lemma names_first (columns lcols rest : list string) (key : string) :
  (∀ k, k ∈ lcols ↔ k ∈ columns) → key ∉ rest →
  ∀ given k g, fresh_names lcols (key :: rest) given → (k, g) ∈ zip (key :: rest) given → k ∈ [key] → fresh_names columns [k] [g].
Proof.
  intros Hl Hk [|g0 given] k g Hf Hin ->%elem_of_list_singleton; [done|]. simpl in Hin.
  apply elem_of_cons in Hin as [[= ->]|Hin].
  - simpl in Hf |- *. destruct Hf as (H1 & H2 & H3 & _). rewrite <- !Hl. split; [done|]. split; [done|]. split; [|done].
    intros H. destruct (H3 H) as (x & ? & ? & H4). exists x. split; [done|]. split; [done|]. intros j Hj. apply Hl, H4, Hj.
  - exfalso. apply Hk. apply elem_of_list_lookup in Hin as (q & Hq). apply lookup_zip_with_Some in Hq as (k' & g' & [= <- <-] & H1 & H2).
    by apply elem_of_list_lookup_2 in H1.
Qed.
