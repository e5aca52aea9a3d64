(** Tables: stacking. *)
From Verif.Spec Require Import Counts Rows.
From Verif.Model Require Import Table.
From Verif.Proof Require Import DictLemmas SliceLemmas ColumnRead ColumnMisc ColumnStatsProofs TableBase TableProofs TableRows.
From Coq Require Import ZifyBool.
Local Open Scope Z_scope.

Section proofs.
  Context {N A T : Type} `{EqDecision N, EqDecision T} (ty : A → T) (none : A) (ps : Z).
  Context (ps_pos : 0 < ps).
  Implicit Types (t u : table N A T) (v w : view (N := N) (A := A)).
  Notation at_ := (at_ none).
  Notation nones k := (replicate k none).

  (** what the first loop gives under the name [k] *)
  Definition stacked (L : nat) (o1 o2 : option (list A)) : option (list A) :=
    match o1, o2 with
    | Some l, Some m => Some (l ++ m)
    | Some l, None => Some l
    | None, Some m => Some (nones L ++ m)
    | None, None => None
    end.

  Lemma names_in t k : k ∈ t.*1 ↔ is_Some (dget t k).
  Proof.
    split; [intros [v ?]%dget_in; eauto|]. intros [v ?]. by eapply dget_elem.
  Qed.

  Lemma stack_one_spec (L : nat) t k c :
    (stack_one ty none ps (Z.of_nat L) t (k, c)).*1 = (if decide (k ∈ t.*1) then t.*1 else t.*1 ++ [k]) ∧
    ∀ n, dget (contents (stack_one ty none ps (Z.of_nat L) t (k, c))) n
         = if decide (n = k) then stacked L (dget (contents t) k) (Some (col_iter c))
           else dget (contents t) n.
  Proof.
    unfold stack_one. cbn [fst snd]. destruct (decide (k ∈ t.*1)) as [Hk|Hk].
    - split.
      + rewrite dset_keys. by rewrite decide_True.
      + intros n. rewrite contents_dset, dget_dset. case_decide; [|done]. subst.
        rewrite contents_dget. apply names_in in Hk as [d ->]. simpl. by rewrite col_iter_app.
    - rewrite Nat2Z.id. unfold tbl_set. set (t1 := dset t k _).
      assert (Ht1 : dget t1 k = Some (col_new ty ps (nones L))).
      { unfold t1. rewrite dget_dset. by rewrite decide_True. }
      assert (Hk1 : t1.*1 = t.*1 ++ [k]).
      { unfold t1. rewrite dset_keys. by rewrite decide_False. }
      split.
      + rewrite dset_keys, Hk1, decide_True; [done|]. set_solver.
      + intros n. rewrite contents_dset, dget_dset. rewrite Ht1. simpl.
        rewrite (contents_dget t k). apply dget_None in Hk. rewrite Hk. simpl.
        case_decide; subst.
        * rewrite col_iter_app. unfold col_new. rewrite col_extend_iter by done. done.
        * unfold t1. rewrite contents_dset, dget_dset, decide_False by done. done.
  Qed.

  Lemma stack_fold_spec (L : nat) u t :
    NoDup u.*1 →
    let cp := fold_left (stack_one ty none ps (Z.of_nat L)) u t in
    cp.*1 = t.*1 ++ filter (λ k, k ∉ t.*1) u.*1 ∧
    ∀ n, dget (contents cp) n = stacked L (dget (contents t) n) (dget (contents u) n).
  Proof.
    revert t. induction u as [|[k c] u IH]; intros t Hu; cbn [fold_left]; [|set (cp := fold_left _ _ _)].
    { split; [by rewrite app_nil_r|]. intros n. simpl. by destruct (dget _ n). }
    apply list.NoDup_cons in Hu as [Hk Hu]. simpl in Hk.
    destruct (stack_one_spec L t k c) as [H1 H2].
    destruct (IH (stack_one ty none ps (Z.of_nat L) t (k, c)) Hu) as [H3 H4]. fold cp in H3, H4.
    split.
    - rewrite H3, H1. rewrite fmap_cons. cbn [fst]. rewrite filter_cons.
      destruct (decide (k ∈ t.*1)) as [Hin|Hin].
      + rewrite decide_False by (intros Hn; by apply Hn). done.
      + rewrite decide_True by done. rewrite <- app_assoc. simpl. do 2 f_equal.
        apply filter_ext_in'. intros n Hn. rewrite not_elem_of_app, elem_of_list_singleton.
        split; [naive_solver|]. intros. split; [done|]. by intros ->.
    - intros n. rewrite H4, H2. change (contents ((k, c) :: u)) with ((k, col_iter c) :: contents u). cbn [dget].
      destruct (decide (n = k)) as [->|]; [|done].
      rewrite (contents_dget u k), (proj2 (dget_None u k)) by done. simpl. by destruct (dget (contents t) k).
  Qed.

  Lemma stack_fill_spec (u t0 cp : table N A T) (ts : table N A T) :
    (∀ k l, dget (contents u) k = Some l → ∃ l', dget (contents cp) k = Some l' ∧ (length l <= length l')%nat) →
    NoDup ts.*1 → (∀ k, k ∈ ts.*1 → k ∈ cp.*1) → NoDup u.*1 → NoDup cp.*1 →
    let m := nrows (contents u) in
    let r := fold_left (λ cp c, if decide (c.1 ∈ u.*1) then cp
                       else if 0 <? tbl_len cp
                       then dset cp c.1 (col_extend ty ps (default [] (dget cp c.1))
                                                    (nones (Z.to_nat (tbl_len u))))
                       else cp) ts cp in
    r.*1 = cp.*1 ∧
    ∀ n, dget (contents r) n = if decide (n ∈ ts.*1 ∧ n ∉ u.*1)
                               then (λ l, l ++ nones m) <$> dget (contents cp) n
                               else dget (contents cp) n.
  Proof.
    intros Hinv Hts Hin Hu Hcp m. revert cp Hinv Hin Hcp.
    induction ts as [|[k c] ts IH]; intros cp Hinv Hin Hcp; cbn [fold_left]; [|set (r := fold_left _ _ _)].
    { split; [done|]. intros n. rewrite decide_False; [done|]. intros [Hn _]. by apply elem_of_nil in Hn. }
    apply list.NoDup_cons in Hts as [Hk Hts]. simpl in Hk. cbn [fst] in r.
    set (cp1 := if decide (k ∈ u.*1) then cp else _) in (value of r).
    assert (Hcp1 : cp1.*1 = cp.*1 ∧ ∀ n, dget (contents cp1) n =
              if decide (n = k ∧ n ∉ u.*1) then (λ l, l ++ nones m) <$> dget (contents cp) n
              else dget (contents cp) n).
    { assert (k ∈ cp.*1) as Hkc by (apply Hin; by left).
      unfold cp1. destruct (decide (k ∈ u.*1)) as [Hku|Hku].
      { split; [done|]. intros n. rewrite decide_False; [done|]. by intros [-> ?]. }
      rewrite !tbl_len_spec, Nat2Z.id. fold m.
      apply names_in in Hkc as Hg. destruct Hg as [d Hd].
      destruct (Z.ltb_spec 0 (Z.of_nat (nrows (contents cp)))) as [Hpos|Hz].
      - split; [by rewrite dset_keys, decide_True|]. intros n.
        rewrite contents_dset, dget_dset, Hd. simpl. rewrite col_extend_iter by done.
        destruct (decide (n = k)) as [->|Hne].
        + rewrite decide_True by done. by rewrite contents_dget, Hd.
        + rewrite decide_False by naive_solver. done.
      - split; [done|]. intros n. case_decide as Hc; [|done]. destruct Hc as [-> _].
        assert (m = 0%nat) as ->.
        { unfold m. unfold nrows. apply Nat.le_0_r. apply list_max_le, List.Forall_forall.
          intros x Hx%elem_of_list_In. apply elem_of_list_fmap in Hx as ([k' l] & -> & Hl). simpl.
          destruct (Hinv k' l) as (l' & Hl' & Hle).
          { apply dget_Some; [|done]. change (NoDup (names (contents u))). by rewrite contents_names. }
          apply dget_Some in Hl'; [|change (NoDup (names (contents cp))); by rewrite contents_names].
          apply nrows_le in Hl'. lia. }
        rewrite contents_dget, Hd. simpl. by rewrite app_nil_r. }
    destruct Hcp1 as [Hkeys Hget].
    destruct (IH Hts cp1) as [H1 H2].
    - intros k' l Hl. destruct (Hinv k' l Hl) as (l' & Hl' & Hle). rewrite Hget, Hl'.
      case_decide; eexists; (split; [reflexivity|]); rewrite ?app_length; lia.
    - intros k' Hk'. rewrite Hkeys. apply Hin. by right.
    - by rewrite Hkeys.
    - fold r in H1, H2. split; [by rewrite H1|]. intros n. rewrite H2, Hget.
      rewrite fmap_cons. cbn [fst].
      destruct (decide (n = k)) as [->|Hne].
      + rewrite (decide_False (P := k ∈ ts.*1 ∧ _)) by naive_solver.
        destruct (decide (k ∈ u.*1)).
        * rewrite !decide_False by naive_solver. done.
        * rewrite (decide_True (P := k = k ∧ _)), (decide_True (P := k ∈ _ ∧ _)); [done| |done]. split; [by left|done].
      + rewrite (decide_False (P := n = k ∧ _)) by naive_solver.
        destruct (decide (n ∈ ts.*1 ∧ n ∉ u.*1)) as [[? ?]|Hn].
        * rewrite decide_True; [done|]. split; [by right|done].
        * rewrite decide_False; [done|]. intros [[->|?]%elem_of_cons ?]; naive_solver.
  Qed.

  Lemma row_by_fields v i : NoDup (names v) → row none v i = map (λ n, field none v n i) (names v).
  Proof. apply row_fields. Qed.

  Lemma field_beyond v n i : (nrows v <= i)%nat → field none v n i = none.
  Proof.
    intros Hi. induction v as [|[m l] v IH]; simpl; [done|].
    unfold nrows in Hi. simpl in Hi. case_decide.
    - rewrite lookup_ge_None_2 by lia. done.
    - apply IH. unfold nrows. lia.
  Qed.

  Lemma at_app_l i (l k : list A) : (i < length l)%nat → at_ i (l ++ k) = at_ i l.
  Proof. intros. unfold TableBase.at_. by rewrite lookup_app_l. Qed.
  Lemma at_app_r i (l k : list A) : at_ (length l + i) (l ++ k) = at_ i k.
  Proof. unfold TableBase.at_. rewrite lookup_app_r by lia. repeat f_equal. lia. Qed.
  Lemma at_nones i k : at_ i (nones k) = none.
  Proof. rewrite <- (app_nil_l (nones k)). rewrite at_pad. by destruct i. Qed.
  Lemma at_beyond i (l : list A) : (length l <= i)%nat → at_ i l = none.
  Proof. intros. unfold TableBase.at_. by rewrite lookup_ge_None_2. Qed.

  Lemma stack_spec t u :
    let v := contents t in let w := contents u in
    NoDup t.*1 → NoDup u.*1 → rect (nrows v) v → rect (nrows w) w →
    let s := contents (tbl_stack ty none ps t u) in
    names s = names v ++ filter (λ k, k ∉ names v) (names w) ∧
    rect (nrows v + nrows w) s ∧
    rows none s = map (λ i, map (λ k, field none v k i) (names s)) (seq 0 (nrows v))
               ++ map (λ i, map (λ k, field none w k i) (names s)) (seq 0 (nrows w)).
  Proof.
    intros v w Ht Hu Hv Hw.
    unfold tbl_stack. rewrite tbl_copy_spec by done. rewrite (tbl_len_spec t). fold v. set (s := contents (fold_left _ t _)).
    set (L := nrows v) in *. set (M := nrows w) in *.
    destruct (stack_fold_spec L u t Hu) as [H1 H2].
    set (cp := fold_left (stack_one ty none ps (Z.of_nat L)) u t) in *.
    fold v w in H2.
    assert (Hcp : NoDup cp.*1).
    { rewrite H1. apply list.NoDup_app. split; [done|]. split; [|by apply list.NoDup_filter].
      intros n Hn [Hn' _]%elem_of_list_filter. done. }
    destruct (stack_fill_spec u t cp t) as [H3 H4]; [|done| |done|done|].
    { intros k l Hl. rewrite H2. fold w in Hl. rewrite Hl. destruct (dget v k); simpl; eexists; split; try reflexivity; rewrite app_length; lia. }
    { intros k Hk. rewrite H1. apply elem_of_app. by left. }
    fold w M in H4. set (r := fold_left _ t cp) in *.
    assert (Hnames : names s = names v ++ filter (λ k, k ∉ names v) (names w)).
    { unfold s, v, w. rewrite !contents_names. by rewrite H3, H1. }
    assert (Hsd : NoDup (names s)).
    { unfold s. rewrite contents_names, H3. done. }
    (* the column under each name *)
    assert (Hcol : ∀ k l, dget s k = Some l →
      l = match dget v k with Some l => l | None => nones L end
          ++ match dget w k with Some l => l | None => nones M end).
    { intros k l. unfold s. rewrite H4, H2.
      assert (Hvk : k ∈ t.*1 ↔ is_Some (dget v k)).
      { unfold v. rewrite contents_dget, names_in, fmap_is_Some. done. }
      assert (Hwk : k ∈ u.*1 ↔ is_Some (dget w k)).
      { unfold w. rewrite contents_dget, names_in, fmap_is_Some. done. }
      destruct (decide (k ∈ t.*1 ∧ k ∉ u.*1)) as [[Hkt Hku]|Hk].
      - apply Hvk in Hkt as [lv Hlv]. rewrite Hlv.
        destruct (dget w k) eqn:Ew; [destruct Hku; apply Hwk; eauto|]. simpl. by intros [= <-].
      - destruct (dget v k) eqn:Ev, (dget w k) eqn:Ew; simpl.
        + by intros [= <-].
        + destruct Hk. split; [apply Hvk; eauto|]. intros Hku%Hwk. by destruct Hku.
        + by intros [= <-].
        + done. }
    assert (Hlen : ∀ k, length (match dget v k with Some l => l | None => nones L end) = L).
    { intros k. destruct (dget v k) as [l|] eqn:E; [|by rewrite replicate_length].
      apply dget_Some in E; [|change (NoDup (names v)); unfold v; by rewrite contents_names].
      apply (proj1 (list.Forall_forall _ _) Hv _ E). }
    assert (Hlen' : ∀ k, length (match dget w k with Some l => l | None => nones M end) = M).
    { intros k. destruct (dget w k) as [l|] eqn:E; [|by rewrite replicate_length].
      apply dget_Some in E; [|change (NoDup (names w)); unfold w; by rewrite contents_names].
      apply (proj1 (list.Forall_forall _ _) Hw _ E). }
    assert (Hrect : rect (L + M) s).
    { apply list.Forall_forall. intros [k l] Hin. apply dget_Some in Hin; [|done].
      apply Hcol in Hin as ->. simpl. by rewrite app_length, Hlen, Hlen'. }
    split_and!; [done|done|].
    destruct (decide (s = [])) as [Hs|Hs].
    { rewrite Hs in Hnames |- *. simpl in Hnames. symmetry in Hnames. apply app_eq_nil in Hnames as [Hnv Hnw].
      assert (v = []) as Hv0 by (by apply (fmap_nil_inv fst)).
      assert (L = 0%nat) as -> by (unfold L; by rewrite Hv0).
      assert (M = 0%nat) as ->; [|done].
      assert (Hw0 : w = []); [|unfold M; by rewrite Hw0].
      apply (fmap_nil_inv fst). destruct (w.*1) as [|n ns] eqn:E; [done|]. exfalso.
      assert (n ∈ filter (λ k, k ∉ names v) (names w)) as Hn.
      { apply elem_of_list_filter. rewrite Hnv. split; [apply not_elem_of_nil|]. unfold names. rewrite E. by left. }
      rewrite Hnw in Hn. by apply elem_of_nil in Hn. }
    assert (Hf : ∀ k i, k ∈ names s → field none s k i =
              at_ i (match dget v k with Some l => l | None => nones L end
                     ++ match dget w k with Some l => l | None => nones M end)).
    { intros k i Hk. rewrite field_dget. apply dget_in in Hk as [l Hl]. rewrite Hl. simpl.
      by rewrite (Hcol k l Hl) at 1. }
    unfold rows. rewrite (nrows_rect _ _ Hrect Hs). rewrite seq_app, map_app. f_equal.
    - apply list_fmap_ext. intros _ i Hi%elem_of_list_lookup_2%elem_of_seq.
      rewrite row_fields by done. apply list_fmap_ext. intros _ k Hk%elem_of_list_lookup_2.
      rewrite Hf by done. rewrite at_app_l by (rewrite Hlen; lia). rewrite field_dget.
      destruct (dget v k); [done|]. simpl. rewrite at_nones. by destruct i.
    - pose proof (fmap_add_seq L 0 M) as Hq. rewrite Nat.add_0_r in Hq. rewrite Nat.add_0_l, <- Hq.
      change (Nat.add L <$> seq 0 M) with (map (Nat.add L) (seq 0 M)). rewrite map_map.
      apply list_fmap_ext. intros _ i Hi%elem_of_list_lookup_2%elem_of_seq.
      rewrite row_fields by done. apply list_fmap_ext. intros _ k Hk%elem_of_list_lookup_2.
      rewrite Hf by done. rewrite <- (Hlen k) at 1. rewrite at_app_r. rewrite field_dget.
      destruct (dget w k); [done|]. simpl. rewrite at_nones. by destruct i.
  Qed.
End proofs.
