From Verif.Model Require Export Diff.
From Coq Require Import Ascii.
From Verif.Proof Require Export PivotsProofs NamesProofs.
Local Open Scope Z_scope.

(** ** the operations of difflib as a listing *)
Section listing.
  Context {X : Type} (R : X → X → Prop) (a b : list X).

  Definition op_out (o : opcode * nat * nat * nat * nat) : list (X * labels) :=
    let '(opc, i, i', j, j') := o in
    match opc with
    | OInsert => map (λ r, (r, only_second)) (part b j j')
    | ODelete => map (λ r, (r, only_first)) (part a i i')
    | OEqual => map (λ r, (r, both)) (part b j j')
    | OReplace => map (λ r, (r, replaced)) (part b j j')
    end.
  Definition listing (ops : list (opcode * nat * nat * nat * nat)) : list (X * labels) := concat (map op_out ops).

  Lemma listed_app ls (u v : list (X * labels)) : listed ls (u ++ v) = listed ls u ++ listed ls v.
  Proof using Type. unfold listed. by rewrite list.filter_app, map_app. Qed.
  Lemma listed_map ls l (rs : list X) : listed ls (map (λ r, (r, l)) rs) = if decide (l ∈ ls) then rs else [].
  Proof using Type.
    unfold listed. induction rs as [|r rs IH]; [by destruct (decide _)|]. cbn [map].
    rewrite filter_cons. cbn [snd]. destruct (decide (l ∈ ls)); cbn [map fst]; [by rewrite IH|done].
  Qed.

  Lemma part_split (l : list X) i k rest : (i <= k)%nat → drop k l = rest → drop i l = part l i k ++ rest.
  Proof using Type.
    intros H <-. unfold part. rewrite <- (take_drop (k - i) (drop i l)) at 1. f_equal. rewrite drop_drop. f_equal. lia.
  Qed.
  Lemma part_nil (l : list X) i k : (k <= i)%nat → part l i k = [].
  Proof using Type. intros H. unfold part. by replace (k - i)%nat with 0%nat by lia. Qed.
  Lemma part_len (l : list X) i k : part l i (i + k) = take k (drop i l).
  Proof using Type. unfold part. f_equal. lia. Qed.

  Definition in_second := [only_second; both; replaced].
  Definition in_first := [only_first; both].

  (** what the part before a block and the block itself list *)
  Definition gap (i ai j bj : nat) :=
    if (i <? ai)%nat && (j <? bj)%nat then [(OReplace, i, ai, j, bj)]
    else if (i <? ai)%nat then [(ODelete, i, ai, j, bj)]
    else if (j <? bj)%nat then [(OInsert, i, ai, j, bj)] else [].
  Definition eq_op (ai bj size : nat) :=
    if (size =? 0)%nat then [] else [(OEqual, ai, (ai + size)%nat, bj, (bj + size)%nat)].

  Lemma gap_second i ai j bj : (i <= ai → j <= bj → listed in_second (listing (gap i ai j bj)) = part b j bj)%nat.
  Proof using Type.
    intros Hi Hj. unfold gap, listing. destruct (i <? ai)%nat eqn:E1, (j <? bj)%nat eqn:E2; cbn [andb map concat app op_out];
      rewrite ?app_nil_r, ?listed_map.
    - by rewrite decide_True by (vm_compute; set_solver).
    - rewrite decide_False by (vm_compute; set_solver). rewrite part_nil; [done|]. apply Nat.ltb_ge in E2. lia.
    - by rewrite decide_True by (vm_compute; set_solver).
    - apply Nat.ltb_ge in E2. by rewrite part_nil.
  Qed.
  Lemma eq_second ai bj size : listed in_second (listing (eq_op ai bj size)) = take size (drop bj b).
  Proof using Type.
    unfold eq_op, listing. destruct (size =? 0)%nat eqn:E.
    - apply Nat.eqb_eq in E as ->. done.
    - cbn [map concat app op_out]. rewrite app_nil_r, listed_map. rewrite decide_True by (vm_compute; set_solver).
      apply part_len.
  Qed.
  Lemma gap_first i ai j bj : (i <= ai → bj <= length b)%nat →
    listed in_first (listing (gap i ai j bj)) = part a i ai ∨
    (listed in_first (listing (gap i ai j bj)) = [] ∧ ∃ r, (r, replaced) ∈ listing (gap i ai j bj)).
  Proof using Type.
    intros Hb. unfold gap, listing. destruct (i <? ai)%nat eqn:E1, (j <? bj)%nat eqn:E2; cbn [andb map concat app op_out];
      rewrite ?app_nil_r, ?listed_map.
    - rewrite decide_False by (vm_compute; set_solver). right. split; [done|].
      apply Nat.ltb_lt in E1, E2. destruct (lookup_lt_is_Some_2 b j) as [r Hr]; [lia|]. exists r.
      apply elem_of_list_fmap. exists r. split; [done|].
      apply elem_of_list_lookup. exists 0%nat. unfold part. rewrite lookup_take by lia.
      rewrite lookup_drop. by rewrite Nat.add_0_r.
    - rewrite decide_True by (vm_compute; set_solver). by left.
    - rewrite decide_False by (vm_compute; set_solver). left. apply Nat.ltb_ge in E1. by rewrite part_nil.
    - left. apply Nat.ltb_ge in E1. by rewrite part_nil.
  Qed.
  Lemma eq_first ai bj size : listed in_first (listing (eq_op ai bj size)) = take size (drop bj b).
  Proof using Type.
    unfold eq_op, listing. destruct (size =? 0)%nat eqn:E.
    - apply Nat.eqb_eq in E as ->. done.
    - cbn [map concat app op_out]. rewrite app_nil_r, listed_map. rewrite decide_True by (vm_compute; set_solver).
      apply part_len.
  Qed.

  Lemma opcodes_cons i j ai bj size l :
    listing (opcodes i j ((ai, bj, size) :: l))
    = listing (gap i ai j bj) ++ listing (eq_op ai bj size) ++ listing (opcodes (ai + size) (bj + size) l).
  Proof using Type. cbn [opcodes]. unfold listing. by rewrite !map_app, !concat_app. Qed.

  (** a block, last or not *)
  Lemma blocks_cons i j ai bj size l : blocks_ok R a b i j ((ai, bj, size) :: l) →
    (i <= ai ∧ j <= bj ∧ ai + size <= length a ∧ bj + size <= length b)%nat ∧
    Forall2 R (take size (drop ai a)) (take size (drop bj b)) ∧
    (l = [] ∧ ai + size = length a ∧ bj + size = length b ∨
     l ≠ [] ∧ blocks_ok R a b (ai + size) (bj + size) l)%nat.
  Proof using Type.
    destruct l as [|x l].
    - cbn [blocks_ok]. intros (-> & -> & -> & ? & ?). rewrite !take_0. split; [lia|]. split; [constructor|].
      left. split; [done|]. lia.
    - intros H. change (((0 < size ∧ i <= ai ∧ j <= bj ∧ ai + size <= length a ∧ bj + size <= length b)%nat ∧
        Forall2 R (take size (drop ai a)) (take size (drop bj b)) ∧ blocks_ok R a b (ai + size) (bj + size) (x :: l))) in H.
      destruct H as (H1 & H2 & H3). split; [lia|]. split; [done|]. right. done.
  Qed.

  Lemma listing_second l : ∀ i j, blocks_ok R a b i j l → listed in_second (listing (opcodes i j l)) = drop j b.
  Proof using Type.
    induction l as [|[[ai bj] size] l IH]; intros i j H; [done|].
    apply blocks_cons in H as ((H1 & H2 & H3 & H4) & H5 & H6).
    rewrite opcodes_cons, !listed_app, gap_second, eq_second by lia.
    rewrite (part_split b j bj (drop bj b)) by (done || lia). f_equal.
    rewrite <- (take_drop size (drop bj b)) at 2. f_equal. rewrite drop_drop.
    destruct H6 as [(-> & _ & H6)|[_ H6]].
    - rewrite H6, drop_all. done.
    - apply (IH (ai + size)%nat (bj + size)%nat H6).
  Qed.

  Lemma Forall2_refl' (HR : ∀ x, R x x) (l : list X) : Forall2 R l l.
  Proof using Type. induction l; by constructor. Qed.

  Lemma listing_first (HR : ∀ x, R x x) l : ∀ i j, blocks_ok R a b i j l →
    (∃ sub, sub `sublist_of` drop i a ∧ Forall2 R sub (listed in_first (listing (opcodes i j l)))) ∧
    ((∀ r, (r, replaced) ∉ listing (opcodes i j l)) →
       Forall2 R (drop i a) (listed in_first (listing (opcodes i j l)))).
  Proof using Type.
    induction l as [|[[ai bj] size] l IH]; intros i j H; [done|].
    apply blocks_cons in H as ((H1 & H2 & H3 & H4) & H5 & H6).
    rewrite opcodes_cons, !listed_app, eq_first.
    assert (drop i a = part a i ai ++ take size (drop ai a) ++ drop (ai + size) a) as Ea.
    { rewrite (part_split a i ai (drop ai a)) by (done || lia). f_equal.
      rewrite <- (take_drop size (drop ai a)) at 1. f_equal. by rewrite drop_drop. }
    assert ((∃ sub, sub `sublist_of` drop (ai + size) a ∧
               Forall2 R sub (listed in_first (listing (opcodes (ai + size) (bj + size) l)))) ∧
            ((∀ r, (r, replaced) ∉ listing (opcodes (ai + size) (bj + size) l)) →
               Forall2 R (drop (ai + size) a) (listed in_first (listing (opcodes (ai + size) (bj + size) l)))))
      as [(sub & S1 & S2) S3].
    { destruct H6 as [(-> & H6 & _)|[_ H6]]; [|by apply IH]. rewrite H6, drop_all. cbn [opcodes].
      split; [exists []; split; [done|constructor]|]. intros _. constructor. }
    destruct (gap_first i ai j bj) as [G|[G (r & Hr)]]; [lia| |].
    - rewrite G, Ea. split.
      + exists (part a i ai ++ take size (drop ai a) ++ sub). split.
        * apply sublist_app; [done|]. by apply sublist_app.
        * apply Forall2_app; [by apply Forall2_refl'|]. by apply Forall2_app.
      + intros Hnr. apply Forall2_app; [by apply Forall2_refl'|]. apply Forall2_app; [done|]. apply S3.
        intros r Hr. apply (Hnr r). apply elem_of_app. right. apply elem_of_app. by right.
    - rewrite G, Ea. split.
      + exists (take size (drop ai a) ++ sub). split.
        * apply sublist_inserts_l. by apply sublist_app.
        * cbn [app]. by apply Forall2_app.
      + intros Hnr. exfalso. apply (Hnr r). apply elem_of_app. by left.
  Qed.

  Lemma listing_labels ops e : e ∈ listing ops → e.2 ∈ [only_first; only_second; both; replaced].
  Proof using Type.
    clear R.
    unfold listing. intros H. apply elem_of_list_In, in_concat in H as (l & Hl & He).
    apply in_map_iff in Hl as (o & <- & _). destruct o as [[[[[] ?] ?] ?] ?]; cbn [op_out] in He;
      apply in_map_iff in He as (r & <- & _); cbn [snd]; set_solver.
  Qed.
  Lemma listing_rows ops e : e ∈ listing ops → e.1 ∈ a ∨ e.1 ∈ b.
  Proof using Type.
    clear R.
    assert (∀ (l : list X) i j r, In r (part l i j) → r ∈ l) as Hp.
    { intros l i j r Hr. apply elem_of_list_In in Hr. unfold part in Hr.
      apply elem_of_take in Hr as (k & Hk & _). rewrite lookup_drop in Hk. by eapply elem_of_list_lookup_2. }
    unfold listing. intros H. apply elem_of_list_In, in_concat in H as (l & Hl & He).
    apply in_map_iff in Hl as (o & <- & _). destruct o as [[[[[] ?] ?] ?] ?]; cbn [op_out] in He;
      apply in_map_iff in He as (r & <- & Hr); cbn [fst]; apply Hp in Hr; auto.
  Qed.
End listing.

(** ** the dict of lists *)
Section diff.
  Context {A T : Type} `{EqDecision T} (ty : A → T) (none : A) (ps : Z).
  Context (text : string → A) (np_array : list A → list A).
  Notation tbl := (table string A T).

  Local Notation entry_row := (entry_row text).

  Lemma add_labelled_spec columns first second l1 l2 news rs rs' :
    NoDup (columns ++ [first; second]) → Forall (λ r, length r = length columns) rs' →
    holds_rows none (columns ++ [first; second]) news rs →
    holds_rows none (columns ++ [first; second]) (add_labelled text columns first second l1 l2 news rs')
      (rs ++ map (λ r, entry_row (r, (l1, l2))) rs').
  Proof using Type.
    intros Hns Hl [Hk Hg]. destruct (names_facts columns first second Hns) as (Hc & Hv & Hcv & Hkeep).
    unfold add_labelled. set (cols := zip columns (zip_all rs')).
    assert (∀ k, k ∈ cols.*1 → k ∈ columns) as Hcols.
    { intros k (p & -> & Hp)%elem_of_list_fmap. destruct p as [x y]. by apply elem_of_zip_l in Hp. }
    assert (NoDup cols.*1) as Hnd.
    { unfold cols. clear -Hkeep. generalize (zip_all rs').
      induction columns as [|c l IH]; intros [|x m]; [by constructor..|]. cbn [zip_with]. rewrite fmap_cons. cbn [fst].
      apply list.NoDup_cons in Hkeep as [Hc Hkeep]. apply list.NoDup_cons. split; [|by apply IH].
      intros ([y z] & Hy & Hp)%elem_of_list_fmap. cbn in Hy. subst y. by apply elem_of_zip_l in Hp. }
    destruct (keep_fold (λ l : list A, l) cols news) as [K1 K2]; [done| |].
    { intros n Hn%Hcols. rewrite Hk. apply elem_of_app. by left. }
    cbv zeta in K1, K2. set (n1 := fold_left _ cols news) in *.
    change (fold_left (λ d p, add_to d p.1 p.2) cols news) with n1.
    assert (∀ k, k ∉ columns → dget n1 k = dget news k) as Hout.
    { intros k Hkk. rewrite K2. destruct (dget cols k) eqn:E; [|done]. apply dget_elem in E. by apply Hcols in E. }
    assert (first ∈ n1.*1) as F1. { rewrite K1, Hk. apply elem_of_app. right. by left. }
    assert (second ∈ n1.*1) as F2. { rewrite K1, Hk. apply elem_of_app. right. right. by left. }
    split. { rewrite !add_to_keys; [by rewrite K1|done|by rewrite add_to_keys]. }
    intros k Hkin. rewrite map_app, map_map. rewrite !add_to_get.
    destruct (decide (k = second)) as [->|Hks].
    { unfold dget_or. rewrite add_to_get, decide_False by done. rewrite Hout, Hg by done. cbn [from_option]; unfold id.
      do 2 f_equal. clear - Hns Hl Hc Hv Hcv. induction rs' as [|r rs' IH]; [done|].
      apply list.Forall_cons in Hl as [Hr Hl]. cbn [length replicate map]. rewrite IH by done. f_equal.
      symmetry. by apply fld_vn. }
    destruct (decide (k = first)) as [->|Hkf].
    { unfold dget_or. rewrite Hout, Hg by done. cbn [from_option]; unfold id.
      do 2 f_equal. clear - Hns Hl Hc Hv Hcv. induction rs' as [|r rs' IH]; [done|].
      apply list.Forall_cons in Hl as [Hr Hl]. cbn [length replicate map]. rewrite IH by done. f_equal.
      symmetry. by apply fld_cn. }
    assert (k ∈ columns) as Hkk.
    { apply elem_of_app in Hkin as [?|Hkin]; [done|].
      apply elem_of_cons in Hkin as [->|Hkin]; [done|]. by apply elem_of_list_singleton in Hkin as ->. }
    rewrite K2. unfold dget_or. rewrite Hg by done. cbn [from_option]; unfold id.
    destruct (decide (rs' = [])) as [Ers|Hne].
    { unfold cols. rewrite Ers. cbn [map zip_all]. rewrite app_nil_r. by destruct columns. }
    assert (zip_all rs' = map (λ i, map (TableBase.at_ none i) rs') (seq 0 (length columns))) as Ez by (by apply zip_all_spec).
    apply elem_of_list_lookup_1 in Hkk as [i Hi].
    assert (dget cols k = Some (map (TableBase.at_ none i) rs')) as ->.
    { apply dget_Some; [done|]. unfold cols. rewrite Ez. apply elem_of_list_lookup. exists i.
      rewrite lookup_zip_with, Hi. cbn [mbind option_bind].
      rewrite list_lookup_fmap, lookup_seq_lt; [done|]. by eapply lookup_lt_Some. }
    do 2 f_equal. apply map_ext_in. intros r Hr%elem_of_list_In.
    pose proof (proj1 (list.Forall_forall _ _) Hl r Hr) as L. cbn beta in L.
    unfold entry_row. cbn [fst snd].
    rewrite (fld_at none (columns ++ [first; second]) _ k i); [|done|by apply lookup_app_l_Some].
    rewrite lookup_app_l; [done|]. rewrite L. by eapply lookup_lt_Some.
  Qed.

  Lemma diff_fold columns first second t1 t2 ops : ∀ news rs,
    NoDup (columns ++ [first; second]) → Forall (λ r, length r = length columns) (t1 ++ t2) →
    holds_rows none (columns ++ [first; second]) news rs →
    holds_rows none (columns ++ [first; second]) (fold_left (diff_step text columns first second t1 t2) ops news)
      (rs ++ map entry_row (listing t1 t2 ops)).
  Proof using Type.
    induction ops as [|o ops IH]; intros news rs Hns Hl H; cbn [fold_left].
    { cbn. by rewrite app_nil_r. }
    apply list.Forall_app in Hl as [L1 L2].
    assert (∀ (l : list (list A)) i j, Forall (λ r, length r = length columns) l → Forall (λ r, length r = length columns) (part l i j)) as Hp.
    { intros l i j Hf. unfold part. by apply list.Forall_take, list.Forall_drop. }
    unfold listing. cbn [map concat]. rewrite map_app, (assoc_L (++)). apply IH; [done|by apply list.Forall_app|].
    destruct o as [[[[[] i] i'] j] j']; cbn [diff_step op_out]; rewrite map_map; apply add_labelled_spec; auto.
  Qed.
  (** ** the rows that are compared *)
  Lemma list_of_single (n : string) c fuel : ∀ i,
    (i <= length (col_iter c) → i + fuel = S (length (col_iter c)))%nat →
    (i <= length (col_iter c))%nat →
    list_of_table ty ps fuel (Z.of_nat i) ([(n, c)] : tbl) = Ok (map (λ v, [v]) (drop i (col_iter c))).
  Proof using Type.
    induction fuel as [|fuel IH]; intros i Hf Hi; [lia|]. cbn [list_of_table].
    unfold tbl_getitem. cbn [omap list_omap]. rewrite fmap_cons. cbn [fst fmap list_fmap].
    cbn [forallb]. rewrite bool_decide_eq_true_2 by (by left). cbn [negb andb].
    cbn [select_row dget]. rewrite decide_True by done. rewrite col_getslice_pos by done. cbn [res_bind].
    rewrite getslice_between by lia.
    replace (Z.to_nat (Z.of_nat i)) with i by lia. replace (Z.to_nat (Z.of_nat i + 1)) with (S i) by lia.
    destruct (drop i (col_iter c)) as [|v rest] eqn:E.
    - assert (length (col_iter c) <= i)%nat as Hl by (apply (f_equal length) in E; rewrite drop_length in E; cbn in E; lia).
      rewrite drop_ge by (rewrite take_length; lia). cbn. done.
    - assert (drop i (take (S i) (col_iter c)) = [v]) as ->.
      { transitivity (take 1 (drop i (col_iter c))); [|by rewrite E].
        rewrite skipn_firstn_comm. f_equal. lia. }
      cbn [res_map]. replace (Z.of_nat i + 1) with (Z.of_nat (S i)) by lia.
      assert (drop (S i) (col_iter c) = rest) as Er.
      { replace (S i) with (i + 1)%nat by lia. rewrite <- drop_drop, E. done. }
      rewrite IH; [rewrite Er; done|intros; specialize (Hf Hi); lia|].
      apply (f_equal length) in E. rewrite drop_length in E. cbn in E. lia.
  Qed.

  Lemma diff_rows_spec (t : tbl) : t ≠ [] → NoDup t.*1 →
    diff_rows ty none ps t t.*1 = Ok (rows none (contents t)).
  Proof using Type.
    intros Hne Hnd. destruct t as [|[n c] [|[m d] t']]; [done| |].
    - unfold diff_rows. rewrite fmap_cons. cbn [fst fmap list_fmap map].
      unfold tbl_getitem. cbn [omap list_omap forallb]. rewrite bool_decide_eq_true_2 by (by left). cbn [negb andb dget].
      rewrite decide_True by done. cbn [res_bind contents map fst snd].
      pose proof (list_of_single n c (S (length (col_iter c))) 0) as H. cbn [Z.of_nat] in H. rewrite drop_0 in H.
      unfold tbl_len. rewrite rows_single. rewrite <- H; [|lia..]. f_equal.
      cbn [fold_left snd]. rewrite col_len_iter. lia.
    - unfold diff_rows. set (t := (n, c) :: (m, d) :: t') in *.
      destruct (select_names ty ps t t.*1) as (u & -> & Hu); [done|cbn; lia|done|].
      cbn [res_bind]. by rewrite tbl_rows_spec.
  Qed.
  (** ** the whole function *)
  Lemma label_names columns : ∃ first second, unique_name "1st" columns = Some first ∧
    unique_name "2nd" columns = Some second ∧ first ∉ columns ∧ second ∉ columns ∧ first ≠ second.
  Proof using Type.
    destruct (unique_name_spec "1st" columns) as (f & Hf & Hfn & Hfs), (unique_name_spec "2nd" columns) as (g & Hg & Hgn & Hgs).
    exists f, g. split_and!; try done.
    assert (∃ x, f = String "1"%char x) as [x ->].
    { destruct Hfs as [[_ ->]|(_ & k & _ & -> & _)]; unfold numbered; by eexists. }
    assert (∃ x, g = String "2"%char x) as [y ->].
    { destruct Hgs as [[_ ->]|(_ & k & _ & -> & _)]; unfold numbered; by eexists. }
    done.
  Qed.

  Lemma filter_self (l : list string) : filter (λ n, n ∈ l) l = l.
  Proof using Type.
    assert (∀ k : list string, (∀ n, n ∈ k → n ∈ l) → filter (λ n, n ∈ l) k = k) as H; [|by apply H].
    induction k as [|x k IH]; intros Hk; [done|]. rewrite filter_cons, decide_True by (apply Hk; by left).
    f_equal. apply IH. intros n Hn. apply Hk. by right.
  Qed.

  Lemma diff_spec (R : list A → list A → Prop) matching (t u : tbl) columns :
    0 < ps → (∀ x, R x x) → t ≠ [] → NoDup t.*1 → u.*1 = t.*1 → (columns = None ∨ columns = Some t.*1) →
    let a := rows none (contents t) in
    let b := rows none (contents u) in
    blocks_ok R a b 0 0 (matching a b) →
    (∀ i l, Forall (λ v, ∃ r, r ∈ a ++ b ∧ r !! i = Some v) l → np_array l = l) →
    (∀ l, np_array (map text l) = map text l) →
    ∃ t' first second (out : list (list A * labels)),
      diff ty none ps text np_array matching t u columns = Ok t' ∧
      names (contents t') = t.*1 ++ [first; second] ∧ rect (length out) (contents t') ∧
      rows none (contents t') = map entry_row out ∧
      Forall (λ e, e.1 ∈ a ++ b ∧ e.2 ∈ [only_first; only_second; both; replaced]) out ∧
      listed in_second out = b ∧
      (∃ sub, sub `sublist_of` a ∧ Forall2 R sub (listed in_first out)) ∧
      ((∀ r, (r, replaced) ∉ out) → Forall2 R a (listed in_first out)).
  Proof using Type.
    intros Hps HR Hne Hnd Hu Hcols a b Hb Hnp Hnt.
    assert (match columns with None => filter (λ n, n ∈ u.*1) t.*1 | Some l => l end = t.*1) as Ec.
    { destruct Hcols as [->| ->]; [|done]. rewrite Hu. apply filter_self. }
    assert (match columns with None => true | Some l => forallb (λ n, bool_decide (n ∈ t.*1) && bool_decide (n ∈ u.*1)) l end = true) as Eo.
    { destruct Hcols as [->| ->]; [done|]. apply forallb_forall. intros n Hn%elem_of_list_In. rewrite Hu.
      by rewrite bool_decide_eq_true_2. }
    unfold diff. rewrite Ec, Eo. cbn [negb]. rewrite diff_rows_spec by done. cbn [res_bind].
    assert (u ≠ []) as Hune. { intros ->. destruct t; [done|]. by rewrite fmap_cons in Hu. }
    assert (diff_rows ty none ps u t.*1 = Ok (rows none (contents u))) as ->.
    { rewrite <- Hu. apply diff_rows_spec; [done|by rewrite Hu]. }
    cbn [res_bind].
    destruct (label_names t.*1) as (first & second & -> & -> & Hf & Hs & Hfs).
    assert (NoDup (t.*1 ++ [first; second])) as Hns.
    { apply NoDup_app. split; [done|]. split.
      - intros n Hn [->|[->|[]%elem_of_nil]%elem_of_cons]%elem_of_cons; done.
      - apply list.NoDup_cons. split; [by intros ->%elem_of_list_singleton|]. apply NoDup_singleton. }
    rewrite new_columns by done. cbn [app]. fold a b.
    set (ns := t.*1 ++ [first; second]) in *. set (new := map (λ n, (n, [])) ns : tbl).
    assert (new.*1 = ns) as Hk.
    { unfold new. clear. induction ns as [|n l IH]; [done|]. cbn [map]. rewrite fmap_cons. by rewrite IH. }
    assert (contents new = map (λ c, (c.1, [])) new) as Hcn.
    { unfold contents. apply map_ext_in. intros [n c] Hi%elem_of_list_In. unfold new in Hi.
      apply elem_of_list_fmap in Hi as (? & [= -> ->] & _). done. }
    assert (holds_rows none ns (contents new) []) as H0.
    { pose proof (holds_nil none t.*1 first second (contents new)) as H. unfold contents in H at 2. rewrite map_map in H.
      rewrite Hcn. apply H. transitivity (new.*1); [apply (contents_names new)|exact Hk]. }
    set (ops := opcodes 0 0 (matching a b)). set (out := listing a b ops).
    assert (Forall (λ r, length r = length t.*1) (a ++ b)) as Hlen.
    { apply list.Forall_forall. intros r Hr.
      assert (∃ v : tbl, v.*1 = t.*1 ∧ r ∈ rows none (contents v)) as (v & Hv & Hr').
      { apply elem_of_app in Hr as [Hr|Hr]; [exists t|exists u]; by split. }
      apply elem_of_list_fmap in Hr' as (i & -> & _). unfold row. rewrite map_length, <- Hv, fmap_length.
      unfold contents. by rewrite map_length. }
    rewrite Hcn in H0.
    pose proof (diff_fold t.*1 first second a b ops _ [] Hns Hlen H0) as [K G].
    set (news := fold_left _ ops _) in *. cbn [app] in G. fold out in G.
    assert (Forall (λ e, e.1 ∈ a ++ b ∧ e.2 ∈ [only_first; only_second; both; replaced]) out) as Hent.
    { apply list.Forall_forall. intros e He. split.
      - apply elem_of_app. by apply (listing_rows a b ops).
      - by apply (listing_labels a b ops). }
    assert (holds_rows none ns (map (λ c, (c.1, np_array c.2)) news) (map entry_row out)) as E5.
    { split.
      - transitivity (news.*1); [apply (map_fst_map' (λ _ l, np_array l))|exact K].
      - intros k Hkin. rewrite (dget_map' (λ _ l, np_array l)). rewrite G by done. cbn [fmap option_fmap option_map]. f_equal.
        change (t.*1 ++ [first; second]) with ns.
        apply elem_of_list_lookup_1 in Hkin as [i Hi]. rewrite map_map.
        assert (map (λ e, fld none ns (entry_row e) k) out = map (λ e, default none (entry_row e !! i)) out) as ->.
        { apply map_ext. intros e. by apply fld_at. }
        destruct (decide (i < length t.*1)%nat) as [Hlt|Hge].
        + apply (Hnp i). apply list.Forall_forall. intros v (e & -> & He)%elem_of_list_fmap.
          pose proof (proj1 (list.Forall_forall _ _) Hent e He) as [He1 _]. exists e.1. split; [done|].
          pose proof (proj1 (list.Forall_forall _ _) Hlen _ He1) as L. cbn beta in L.
          unfold entry_row. rewrite lookup_app_l by lia. destruct (lookup_lt_is_Some_2 e.1 i) as [v ->]; [lia|]. done.
        + assert (∃ f : labels → string, map (λ e, default none (entry_row e !! i)) out = map text (map (λ e, f e.2) out)) as [f ->];
            [|apply Hnt].
          apply lookup_lt_Some in Hi. unfold ns in Hi. rewrite app_length in Hi. cbn [length] in Hi.
          exists (if decide (i = length t.*1) then fst else snd). rewrite map_map. apply map_ext_in.
          intros e He%elem_of_list_In. pose proof (proj1 (list.Forall_forall _ _) Hent e He) as [He1 _].
          pose proof (proj1 (list.Forall_forall _ _) Hlen _ He1) as L. cbn beta in L.
          unfold entry_row. rewrite lookup_app_r by lia. rewrite L.
          destruct (decide (i = length t.*1)) as [->|Hne'].
          * by rewrite Nat.sub_diag.
          * by replace (i - length t.*1)%nat with 1%nat by lia. }
    rewrite <- Hcn in H0.
    destruct (flush_spec ty none ps t.*1 first second Hns Hps _ _ _ _ H0 E5) as (t' & E6 & E7). cbn [app] in E7.
    exists t', first, second, out. rewrite E6. split; [done|]. split; [by destruct E7|].
    destruct (holds_rows_rows none ns (contents t') (map entry_row out)) as [R1 R2]; [by destruct t as [|? ?]|done| |done|].
    { apply list.Forall_forall. intros r (e & -> & He)%elem_of_list_fmap.
      pose proof (proj1 (list.Forall_forall _ _) Hent e He) as [He1 _].
      pose proof (proj1 (list.Forall_forall _ _) Hlen _ He1) as L. cbn beta in L.
      unfold entry_row, ns. rewrite !app_length, L. done. }
    rewrite map_length in R1. split; [done|]. split; [done|]. split; [done|].
    pose proof (listing_second R a b _ 0 0 Hb) as S. rewrite drop_0 in S.
    pose proof (listing_first R a b HR _ 0 0 Hb) as [F1 F2]. rewrite drop_0 in F1, F2. done.
  Qed.
End diff.

(** ** what goes wrong *)
Lemma blocks_single {X} (x y : X) l : blocks_ok eq [x] [y] 0 0 l →
  l = [(1, 1, 0)]%nat ∨ x = y ∧ l = [(0, 0, 1); (1, 1, 0)]%nat.
Proof.
  destruct l as [|[[i j] k] [|[[i' j'] k'] l]]; [done| |].
  - intros (-> & -> & -> & _). by left.
  - intros ((Hk & _ & _ & Hi & Hj) & H & Hl). cbn [length] in *.
    assert (k = 1 ∧ i = 0 ∧ j = 0)%nat as (-> & -> & ->) by lia.
    right. split. { cbn in H. by apply Forall2_cons_1 in H as [-> _]. }
    f_equal. destruct l as [|[[i2 j2] k2] l].
    + destruct Hl as (-> & -> & -> & _). done.
    + destruct Hl as ((Hk' & Hi' & Hj' & Hi2 & Hj2) & _). cbn [length] in *. lia.
Qed.

Definition matches := list (list cell) → list (list cell) → list (nat * nat * nat).
Notation diff_cells := (diff cty CNone 4 CStr np_array_of).

Lemma diff_replace_loses : ∃ t t' u : table string cell ctype,
  contents t ≠ contents t' ∧ t.*1 = u.*1 ∧ t'.*1 = u.*1 ∧
  ∀ matching : matches,
    (∀ a b, blocks_ok eq a b 0 0 (matching a b)) →
    diff_cells matching t u None = diff_cells matching t' u None.
Proof.
  exists (cell_cols [("x", [CInt 1])]%string), (cell_cols [("x", [CInt 2])]%string), (cell_cols [("x", [CInt 3])]%string).
  split; [by vm_compute|]. split; [by vm_compute|]. split; [by vm_compute|]. intros m Hm.
  assert (m [[CInt 1]] [[CInt 3]] = [(1, 1, 0)]%nat) as E1 by (by destruct (blocks_single _ _ _ (Hm [[CInt 1]] [[CInt 3]])) as [?|[? _]]).
  assert (m [[CInt 2]] [[CInt 3]] = [(1, 1, 0)]%nat) as E2 by (by destruct (blocks_single _ _ _ (Hm [[CInt 2]] [[CInt 3]])) as [?|[? _]]).
  transitivity (diff_cells (λ _ _, [(1, 1, 0)]%nat) (cell_cols [("x", [CInt 1])]%string) (cell_cols [("x", [CInt 3])]%string) None).
  - vm_compute. by rewrite E1.
  - transitivity (diff_cells (λ _ _, [(1, 1, 0)]%nat) (cell_cols [("x", [CInt 2])]%string) (cell_cols [("x", [CInt 3])]%string) None).
    + by vm_compute.
    + vm_compute. by rewrite E2.
Qed.

(** only column "a" is asked for and it is the same in both *)
Lemma diff_other_columns : ∃ t u : table string cell ctype,
  dget (contents t) "a" = dget (contents u) "a" ∧
  ∀ matching : matches,
    (∀ a b, blocks_ok eq a b 0 0 (matching a b)) →
    res_map contents (diff_cells matching t u (Some ["a"]%string))
    = Ok [("a", [CInt 1]); ("1st", [CStr "r"]); ("2nd", [CStr "r"])]%string.
Proof.
  exists (cell_cols [("a", [CInt 1]); ("b", [CInt 2])]%string), (cell_cols [("a", [CInt 1]); ("b", [CInt 3])]%string).
  split; [by vm_compute|]. intros m Hm.
  assert (m [[CInt 1; CInt 2]] [[CInt 1; CInt 3]] = [(1, 1, 0)]%nat) as E1
    by (by destruct (blocks_single _ _ _ (Hm [[CInt 1; CInt 2]] [[CInt 1; CInt 3]])) as [?|[? _]]).
  transitivity (res_map contents (diff_cells (λ _ _, [(1, 1, 0)]%nat) (cell_cols [("a", [CInt 1]); ("b", [CInt 2])]%string)
                  (cell_cols [("a", [CInt 1]); ("b", [CInt 3])]%string) (Some ["a"]%string))); [|by vm_compute].
  vm_compute. by rewrite E1.
Qed.
(** the columns are asked for in another order *)
Lemma diff_column_order : ∃ t : table string cell ctype,
  dget (contents t) "b" = Some [CInt 2] ∧
  ∀ matching : matches,
    (∀ a b, blocks_ok eq a b 0 0 (matching a b)) →
    res_map (λ r, dget (contents r) "b") (diff_cells matching t t (Some ["b"; "a"]%string)) = Ok (Some [CInt 1]).
Proof.
  exists (cell_cols [("a", [CInt 1]); ("b", [CInt 2])]%string). split; [by vm_compute|]. intros m Hm.
  destruct (blocks_single _ _ _ (Hm [[CInt 1; CInt 2]] [[CInt 1; CInt 2]])) as [E|[_ E]].
  - transitivity (res_map (λ r, dget (contents r) "b") (diff_cells (λ _ _, [(1, 1, 0)]%nat) (cell_cols [("a", [CInt 1]); ("b", [CInt 2])]%string)
                  (cell_cols [("a", [CInt 1]); ("b", [CInt 2])]%string) (Some ["b"; "a"]%string))); [|by vm_compute].
    vm_compute. by rewrite E.
  - transitivity (res_map (λ r, dget (contents r) "b") (diff_cells (λ _ _, [(0, 0, 1); (1, 1, 0)]%nat) (cell_cols [("a", [CInt 1]); ("b", [CInt 2])]%string)
                  (cell_cols [("a", [CInt 1]); ("b", [CInt 2])]%string) (Some ["b"; "a"]%string))); [|by vm_compute].
    vm_compute. by rewrite E.
Qed.
Lemma diff_text : ∃ (t u : table string cell ctype) (blocks : list (nat * nat * nat)),
  blocks_ok eq (rows CNone (contents t)) (rows CNone (contents u)) 0 0 blocks ∧
  contents u = [("a", [CInt 1; CStr "x"])]%string ∧
  res_map contents (diff_cells (λ _ _, blocks) t u None)
  = Ok [("a", [CStr "1"; CStr "x"]); ("1st", [CStr "="; CStr "="]); ("2nd", [CStr "="; CStr "="])]%string.
Proof.
  exists (cell_cols [("a", [CInt 1; CStr "x"])]%string), (cell_cols [("a", [CInt 1; CStr "x"])]%string), [(0, 0, 2); (2, 2, 0)]%nat.
  split; [|by vm_compute]. vm_compute. split_and!; try lia; try done.
Qed.
