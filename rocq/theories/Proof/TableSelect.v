(** Tables: selecting columns and rows, indexing. *)
From Verif.Spec Require Import Counts Rows.
From Verif.Model Require Import Table.
From Verif.Proof Require Import DictLemmas SliceLemmas ColumnRead ColumnMisc ColumnStatsProofs TableBase TableProofs.
From Coq Require Import ZifyBool.
Local Open Scope Z_scope.

Section proofs.
  Context {N A T : Type} `{EqDecision N, EqDecision T} (ty : A → T) (none : A) (ps : Z).
  Context (ps_pos : 0 < ps).
  Implicit Types (t u : table N A T) (v w : view (N := N) (A := A)).
  Notation at_ := (at_ none).

  (** ** sub_column *)
  Lemma getitems_loop_data rv ss se ri off (c : column A T) :
    res_map (map item_data) (getitems_loop rv ss se ri off c) = getpages_loop rv ss se ri off c.
  Proof.
    revert off. induction c as [|p c IH]; intros off; cbn [getitems_loop getpages_loop]; [done|].
    destruct (if rv then _ else _); [done|]. destruct (if rv then _ else _); [done|].
    destruct (intercept _ _) as [ro|e]; cbn [res_bind]; [|done].
    destruct (rlen ro =? 0); [done|]. rewrite <- IH.
    destruct (rlen ro =? plen p); destruct (getitems_loop _ _ _ _ _ _); done.
  Qed.

  Lemma getitems_data (c : column A T) s :
    res_map (map item_data) (getitems c s) = getpages c s.
  Proof.
    unfold getitems, getpages. destruct (sl_stepv s =? 0); [done|].
    destruct (slice_indices s (col_len c)) as [[a b] st]. rewrite <- getitems_loop_data.
    destruct (getitems_loop _ _ _ _ _ _) as [items|]; cbn [res_map]; [|done].
    destruct (match sl_step s with Some k => _ | None => _ end); [|done].
    f_equal. rewrite !map_map. simpl. rewrite <- map_rev, map_map. done.
  Qed.

  Lemma add_items_iter (items : list (page A T + list A)) (c : column A T) :
    col_iter (fold_left (Table.add_item ty ps) items c) = col_iter c ++ concat (map item_data items).
  Proof.
    revert c. induction items as [|i items IH]; intros c; simpl; [by rewrite app_nil_r|].
    rewrite IH. destruct i as [p|xs]; simpl.
    - rewrite col_iter_app, <- app_assoc. f_equal. unfold col_iter. simpl. by rewrite app_nil_r.
    - rewrite col_extend_iter by done. by rewrite <- app_assoc.
  Qed.

  Lemma sub_column_iter (c : column A T) s :
    res_map col_iter (sub_column ty ps c s) = col_getslice c s.
  Proof.
    unfold sub_column, col_getslice. rewrite <- getitems_data.
    destruct (getitems c s) as [items|]; cbn [res_map]; [|done]. f_equal. apply (add_items_iter items []).
  Qed.

  (** ** names and a slice *)
  Lemma select_slices_spec t acc (ns : list N) s :
    0 < sl_stepv s → (∀ n, n ∈ ns → n ∈ t.*1) → NoDup (acc.*1 ++ ns) →
    ∃ t', select_slices ty ps t acc ns s = Ok t' ∧
      contents t' = contents acc ++ map (λ n, (n, py_getslice (default [] (dget (contents t) n)) s)) ns.
  Proof.
    intros Hs. revert acc. induction ns as [|n ns IH]; intros acc Hin Hnd.
    { exists acc. split; [done|]. by rewrite app_nil_r. }
    destruct (dget_in t n) as [c Hc]; [apply Hin; by left|].
    cbn [select_slices]. rewrite Hc.
    pose proof (sub_column_iter c s) as Hsub. rewrite col_getslice_pos in Hsub by done.
    destruct (sub_column ty ps c s) as [c'|]; [|done]. cbn [res_map] in Hsub. injection Hsub as Hsub.
    cbn [res_bind].
    assert (n ∉ acc.*1) as Hn.
    { intros Hn. apply list.NoDup_app in Hnd as (_ & Hd & _). apply (Hd n Hn). by left. }
    rewrite dset_fresh by done.
    destruct (IH (acc ++ [(n, c')])) as (t' & Ht' & Hct).
    { intros m Hm. apply Hin. by right. }
    { rewrite fmap_app. simpl. rewrite <- app_assoc. done. }
    exists t'. split; [done|]. rewrite Hct, contents_app, <- app_assoc. f_equal. simpl.
    rewrite contents_dget, Hc. simpl. by rewrite Hsub.
  Qed.

  Lemma omap_names (ns : list N) (s : pyslice) :
    omap (λ k : key N, match k with KName n => Some n | _ => None end) (map KName ns ++ [KSlice s]) = ns.
  Proof. induction ns as [|n ns IH]; simpl; [done|]. by f_equal. Qed.
  Lemma omap_names_s (ns : list N) (s : pyslice) :
    omap (λ k : key N, match k with KSlice s => Some s | _ => None end) (map KName ns ++ [KSlice s]) = [s].
  Proof. induction ns as [|n ns IH]; simpl; done. Qed.
  Lemma omap_names_i (ns : list N) (s : pyslice) :
    omap (λ k : key N, match k with KInt i => Some i | _ => None end) (map KName ns ++ [KSlice s]) = [].
  Proof. induction ns as [|n ns IH]; simpl; done. Qed.

  Lemma select_names_slice t (ns : list N) s :
    NoDup t.*1 → NoDup ns → (∀ n, n ∈ ns → n ∈ t.*1) → 0 < sl_stepv s →
    ∃ t', tbl_getitem ty ps t (map KName ns ++ [KSlice s]) = Ok (SelTable t') ∧
      contents t' = map (λ n, (n, py_getslice (default [] (dget (contents t) n)) s))
                        (match ns with [] => names (contents t) | _ => ns end).
  Proof.
    intros Ht Hns Hin Hs.
    set (ns' := match ns with [] => t.*1 | _ => ns end).
    assert (NoDup ns') as Hns' by (by destruct ns).
    assert (Hin' : ∀ n, n ∈ ns' → n ∈ t.*1) by (by destruct ns).
    destruct (select_slices_spec t [] ns' s Hs Hin' Hns') as (t' & Ht' & Hc).
    exists t'. split; [|rewrite Hc, contents_names; by destruct ns].
    unfold tbl_getitem.
    pose proof (omap_names ns s) as E1. pose proof (omap_names_s ns s) as E2.
    pose proof (omap_names_i ns s) as E3.
    destruct ns as [|n ns]; simpl app in *; cbv beta iota zeta; rewrite E1, E2, E3; cbv iota;
      fold ns'; (rewrite (proj2 (forallb_in _ _)); [|done]); cbn [negb head default];
      unfold id; by rewrite Ht'.
  Qed.

  (** ** one row *)
  Lemma getslice_row (l : list A) i :
    i ≠ -1 → - zlen l <= i < zlen l →
    py_getslice l (Slice (Some i) (Some (i + 1)) None)
    = option_list (znth l (if i <? 0 then i + zlen l else i)).
  Proof.
    intros Hi Hr.
    change (py_getslice l (Slice (Some i) (Some (i + 1)) (Some 1))
            = option_list (znth l (if i <? 0 then i + zlen l else i))).
    rewrite getslice_one. destruct (i <? -1) eqn:E1, (i <? 0) eqn:E2; try lia; simpl;
      by destruct (znth _ _).
  Qed.

  Lemma select_row_spec t (ns : list N) i n :
    rect n (contents t) → NoDup t.*1 → (∀ k, k ∈ ns → k ∈ t.*1) →
    i ≠ -1 → - Z.of_nat n <= i < Z.of_nat n →
    select_row t ns i
    = Ok (map (λ k, field none (contents t) k (Z.to_nat (if i <? 0 then i + Z.of_nat n else i))) ns).
  Proof.
    intros Hr Ht Hin Hi Hb. induction ns as [|k ns IH]; [done|].
    destruct (dget_in t k) as [c Hc]; [apply Hin; by left|].
    cbn [select_row]. rewrite Hc. rewrite col_getslice_pos by done. cbn [res_bind].
    assert (Hlen : length (col_iter c) = n).
    { apply (proj1 (list.Forall_forall _ _) Hr (k, col_iter c)). apply elem_of_list_fmap.
      exists (k, c). split; [done|]. by apply dget_Some. }
    rewrite getslice_row by (rewrite ?Hlen; lia). rewrite Hlen.
    destruct (znth_Some (col_iter c) (if i <? 0 then i + Z.of_nat n else i)) as [x Hx].
    { rewrite Hlen. destruct (i <? 0) eqn:E; lia. }
    rewrite Hx. simpl. rewrite IH by (intros; apply Hin; by right). simpl. f_equal. f_equal.
    rewrite field_dget, contents_dget, Hc. simpl. unfold TableBase.at_.
    rewrite SliceLemmas.znth_lookup in Hx by (destruct (i <? 0) eqn:E; lia). by rewrite Hx.
  Qed.

  Lemma select_int t i n :
    NoDup t.*1 → rect n (contents t) → i ≠ -1 → - Z.of_nat n <= i < Z.of_nat n →
    tbl_getitem ty ps t [KInt i]
    = Ok (SelRow (row none (contents t) (Z.to_nat (if i <? 0 then i + Z.of_nat n else i)))).
  Proof.
    intros Ht Hr Hi Hb. unfold tbl_getitem. cbn [omap list_omap].
    rewrite (proj2 (forallb_in t.*1 t.*1)) by done. cbn [negb].
    rewrite row_fields by (by rewrite contents_names). rewrite contents_names.
    pose proof (select_row_spec t t.*1 i n Hr Ht ltac:(done) Hi Hb) as Hs.
    destruct (t.*1) as [|? [|]]; by rewrite Hs.
  Qed.

  Lemma getslice_last (l : list A) : py_getslice l (Slice (Some (-1)) (Some (-1 + 1)) None) = [].
  Proof.
    change (py_getslice l (Slice (Some (-1)) (Some (-1 + 1)) (Some 1)) = []).
    by rewrite getslice_one.
  Qed.

  (** the last row cannot be had with -1 *)
  Lemma select_minus_one t :
    t ≠ [] → tbl_getitem ty ps t [KInt (-1)] = Err IndexError.
  Proof.
    intros Ht. unfold tbl_getitem. cbn [omap list_omap].
    rewrite (proj2 (forallb_in t.*1 t.*1)) by done. cbn [negb].
    destruct t as [|[n c] t]; [done|]. rewrite !fmap_cons. cbn [fst].
    assert (select_row ((n, c) :: t) (n :: t.*1) (-1) = Err IndexError) as He.
    { cbn [select_row dget]. rewrite decide_True by done. rewrite col_getslice_pos by done.
      cbn [res_bind]. by rewrite getslice_last. }
    destruct (t.*1) as [|? ?]; cbn [head]; by rewrite He.
  Qed.

  (** ** index *)
  Context {K : Type} `{EqDecision K} (keyc : A → K).

  Lemma index_keys_spec (ks : list (list K)) : indexes_exactly (index_keys ks) ks.
  Proof.
    apply idict_exact. unfold index_keys, enumerate.
    apply (idict_fold _ [] []). split; [constructor|]. done.
  Qed.

  Lemma col_keys_spec t (args : list N) :
    (∀ n, n ∈ args → n ∈ t.*1) →
    col_keys t args = Ok (map (λ n, default [] (dget (contents t) n)) args).
  Proof.
    induction args as [|n args IH]; intros Hin; [done|]. simpl.
    rewrite IH by (intros; apply Hin; by right).
    destruct (dget_in t n) as [c Hc]; [apply Hin; by left|].
    rewrite contents_dget, Hc. done.
  Qed.

  Lemma keys_zip t (args : list N) n :
    args ≠ [] → (∀ k, k ∈ args → ∃ l, dget (contents t) k = Some l ∧ length l = n) →
    map (map keyc) (zip_all (map (λ k, default [] (dget (contents t) k)) args))
    = row_keys none keyc (contents t) args n.
  Proof.
    intros Hne Hl. rewrite (zip_all_spec none n).
    - rewrite map_map. unfold row_keys, row_key. apply map_ext. intros i.
      rewrite !map_map. apply map_ext. intros k. by rewrite field_dget.
    - by destruct args.
    - apply Forall_fmap, list.Forall_forall. intros k Hk. simpl.
      destruct (Hl k Hk) as (l & -> & ?). done.
  Qed.

  Lemma dget_names_in t k l : dget (contents t) k = Some l → k ∈ t.*1.
  Proof.
    rewrite contents_dget. intros (c & Hc & _)%fmap_Some. by eapply dget_elem.
  Qed.

  Lemma tbl_index_spec t (args : list N) n :
    args ≠ [] → (∀ k, k ∈ args → ∃ l, dget (contents t) k = Some l ∧ length l = n) →
    ∃ d, tbl_index keyc t args = Ok d ∧ indexes_exactly d (row_keys none keyc (contents t) args n).
  Proof.
    intros Hne Hl. unfold tbl_index. rewrite col_keys_spec.
    - cbn [res_map]. eexists. split; [reflexivity|]. rewrite (keys_zip t args n) by done.
      apply index_keys_spec.
    - intros k Hk. destruct (Hl k Hk) as (l & ? & _). by eapply dget_names_in.
  Qed.

  (** ** unique_index *)
  Section unique.
    Context (hash : list K → Z).

    Definition uniq_step (st : list Z * list Z) (p : Z * list K) : list Z * list Z :=
      let '(seen, unique) := st in
      if decide (hash p.2 ∈ seen) then st else (seen ++ [hash p.2], unique ++ [p.1]).

    Lemma uniq_fold (ks pre : list (list K)) seen uniq :
      (∀ k1 k2, k1 ∈ pre ++ ks → k2 ∈ pre ++ ks → hash k1 = hash k2 → k1 = k2) →
      (∀ k, k ∈ pre → hash k ∈ seen) → (∀ h, h ∈ seen → ∃ k, k ∈ pre ∧ h = hash k) →
      first_occurrences pre uniq →
      first_occurrences (pre ++ ks) (fold_left uniq_step (zip (seqZ (zlen pre) (zlen ks)) ks) (seen, uniq)).2.
    Proof.
      clear ty ps_pos ps none keyc.
      revert pre seen uniq. induction ks as [|k ks IH]; intros pre seen uniq Hinj H1 H2 Hu.
      { by rewrite app_nil_r. }
      simpl length. rewrite Nat2Z.inj_succ, seqZ_cons by lia. cbn [zip zip_with fold_left].
      replace (Z.pred (Z.succ (zlen ks))) with (zlen ks) by lia.
      replace (Z.succ (zlen pre)) with (zlen (pre ++ [k])) by (rewrite app_length; simpl; lia).
      replace (pre ++ k :: ks) with ((pre ++ [k]) ++ ks) by (by rewrite <- app_assoc).
      assert (Hseen : hash k ∈ seen ↔ k ∈ pre).
      { split; [|apply H1]. intros (k' & Hk' & He)%H2. rewrite (Hinj k k'); [done| |by set_solver|done].
        apply elem_of_app. right. by left. }
      assert (Hlast : ∀ i, 0 <= i → (∃ k', (pre ++ [k]) !! Z.to_nat i = Some k' ∧ k' ∉ take (Z.to_nat i) (pre ++ [k]))
         ↔ (∃ k', pre !! Z.to_nat i = Some k' ∧ k' ∉ take (Z.to_nat i) pre) ∨ (i = zlen pre ∧ k ∉ pre)).
      { intros i Hi. destruct (decide (Z.to_nat i < length pre)%nat) as [Hlt|Hge].
        - rewrite lookup_app_l by done. rewrite take_app_le by lia. split; [by left|].
          intros [?|[-> _]]; [done|lia].
        - rewrite lookup_app_r by lia. split.
          + intros (k' & Hk' & Hn). right.
            destruct (Z.to_nat i - length pre)%nat as [|j] eqn:E; simpl in Hk'; [|by destruct j].
            injection Hk' as <-. split; [lia|]. by rewrite take_app_le, firstn_all2 in Hn by lia.
          + intros [(k' & Hk' & _)|[-> Hn]].
            * apply lookup_lt_Some in Hk'. lia.
            * exists k. rewrite Nat2Z.id, Nat.sub_diag. split; [done|].
              by rewrite take_app_le, firstn_all2 by lia. }
      destruct Hu as [Hsort Huiff].
      rewrite <- (app_assoc pre [k] ks) in Hinj || idtac.
      cbn [uniq_step fst snd]. destruct (decide (hash k ∈ seen)) as [Hin|Hin].
      - apply IH.
        + by rewrite <- app_assoc.
        + intros k' [?| ->%elem_of_list_singleton]%elem_of_app; [by apply H1|done].
        + intros h (k' & ? & ?)%H2. exists k'. split; [by set_solver|done].
        + split; [done|]. intros i. rewrite Huiff. split; intros [Hi He]; (split; [done|]); apply Hlast in He || apply Hlast; try done.
          * by left.
          * destruct He as [?|[_ Hn]]; [done|]. by apply Hseen in Hin.
      - apply IH.
        + by rewrite <- app_assoc.
        + intros k' [?| ->%elem_of_list_singleton]%elem_of_app; apply elem_of_app; [left; by apply H1|right; by left].
        + intros h [(k' & ? & ?)%H2| ->%elem_of_list_singleton]%elem_of_app; [exists k'|exists k]; (split; [by set_solver|done]).
        + split.
          * assert (Hlt : Forall (λ i, i < zlen pre) uniq).
            { apply list.Forall_forall. intros i (Hi & k' & Hk' & _)%Huiff. apply lookup_lt_Some in Hk'. lia. }
            clear -Hsort Hlt. induction Hsort as [|i l Hs IH Hf]; simpl; [repeat constructor|].
            apply list.Forall_cons in Hlt as [Hi Hlt]. constructor; [by apply IH|].
            apply list.Forall_app. split; [done|]. by constructor.
          * intros i. rewrite elem_of_app, elem_of_list_singleton, Huiff. split.
            -- intros [[Hi He]| ->].
               ++ split; [done|]. apply Hlast; [done|]. by left.
               ++ split; [lia|]. apply Hlast; [lia|]. right. split; [done|]. by rewrite <- Hseen.
            -- intros [Hi He]. apply Hlast in He; [|done]. destruct He as [?|[-> _]]; [left|right]; done.
    Qed.

    Lemma unique_ixs_spec (ks : list (list K)) :
      (∀ k1 k2, k1 ∈ ks → k2 ∈ ks → hash k1 = hash k2 → k1 = k2) →
      first_occurrences ks (unique_ixs hash ks).
    Proof.
      intros Hinj. unfold unique_ixs, enumerate.
      apply (uniq_fold ks [] [] []); [done|by intros ? ?%elem_of_nil..|].
      split; [constructor|]. intros i. rewrite elem_of_nil. split; [done|]. intros (_ & k & Hk & _). done.
    Qed.

    Lemma unique_index_spec t (args : list N) n :
      args ≠ [] → (∀ k, k ∈ args → ∃ l, dget (contents t) k = Some l ∧ length l = n) →
      let ks := row_keys none keyc (contents t) args n in
      (∀ k1 k2, k1 ∈ ks → k2 ∈ ks → hash k1 = hash k2 → k1 = k2) →
      ∃ ixs, unique_index keyc hash t args = Ok ixs ∧ first_occurrences ks ixs.
    Proof.
      intros Hne Hl ks Hinj. unfold unique_index. rewrite col_keys_spec.
      2:{ intros k Hk. destruct (Hl k Hk) as (l & ? & _). by eapply dget_names_in. }
      destruct args as [|a args]; [done|]. set (args' := a :: args) in *.
      cbn [res_map]. eexists. split; [reflexivity|]. rewrite (keys_zip t args' n) by done.
      by apply unique_ixs_spec.
    Qed.
  End unique.
End proofs.
