(** Proofs of C93: [ods_reader]. *)
From Verif.Proof Require Import NamesProofs ColumnRead DictLemmas TableBase SmallProofs ExportProofs JsonTableProofs SheetPack SheetProofs SheetFinal.
From Verif.Spec Require Import SheetCells.
From Verif.Model Require Import SheetReader.
Local Open Scope list_scope.
Local Open Scope Z_scope.

Lemma filter_all {A} (P : A → Prop) `{∀ x, Decision (P x)} l : Forall P l → filter P l = l.
Proof. induction 1; [done|]. rewrite filter_cons_True by done. by f_equal. Qed.

Lemma filter_numbered {A} (P : A → Prop) `{∀ x, Decision (P x)} (h : Z) (l : list A) : ∀ k : nat,
  map snd (filter (λ p : nat * A, Z.of_nat p.1 < h ∨ P p.2) (zip (seq k (length l)) l))
  = take (Z.to_nat (h - Z.of_nat k)) l ++ filter P (drop (Z.to_nat (h - Z.of_nat k)) l).
Proof.
  induction l as [|x l IH]; intros k.
  - cbn. rewrite take_nil, drop_nil, filter_nil. done.
  - cbn [length seq zip_with]. destruct (decide (Z.of_nat k < h)) as [Hk|Hk].
    + rewrite filter_cons_True by (left; done). cbn [map snd]. rewrite IH.
      replace (Z.to_nat (h - Z.of_nat k)) with (S (Z.to_nat (h - Z.of_nat (S k)))) by lia. done.
    + replace (Z.to_nat (h - Z.of_nat k)) with 0%nat by lia. rewrite take_0, drop_0. cbn [app].
      replace (Z.to_nat (h - Z.of_nat (S k))) with 0%nat in IH by lia.
      specialize (IH (S k)). replace (Z.to_nat (h - Z.of_nat (S k))) with 0%nat in IH by lia.
      rewrite take_0, drop_0 in IH. cbn [app] in IH.
      destruct (decide (P x)).
      * rewrite !filter_cons_True by (try right; done). cbn [map snd]. by rewrite IH.
      * rewrite !filter_cons_False by (try (intros [?|?]); done || lia). done.
Qed.

Section ods.
  Context {O T : Type} `{EqDecision O, EqDecision T} (ty : xcell O → T) (ps : Z) (str : xcell O → string) (Hps : 0 < ps).
  Local Notation table := (table string (xcell O) T).
  Local Notation blank := (λ v : xcell O, v = XNone ∨ v = XStr []).

  Lemma ods_blank_spec v : ods_blank v = true ↔ blank v.
  Proof.
    destruct v as [| | | |x| |]; cbn; try (split; [done|by intros [?|?]]).
    - split; [by left|done].
    - rewrite bool_decide_eq_true. split; [intros ->; by right|]. by intros [?|[= ->]].
  Qed.

  Lemma ods_keeps s row : s ≠ SkipNone →
    (match s with SkipAll => existsb (λ v, negb (ods_blank v)) row | _ => forallb (λ v, negb (ods_blank v)) row end = true) ↔ keeps blank s row.
  Proof.
    intros Hs. destruct s; cbn [keeps]; [done| |].
    - rewrite existsb_exists, list.Exists_exists. setoid_rewrite elem_of_list_In. apply exist_proper. intros v.
      rewrite negb_true_iff, <- not_true_iff_false, ods_blank_spec. done.
    - rewrite forallb_forall, list.Forall_forall. setoid_rewrite elem_of_list_In. apply forall_proper. intros v.
      apply forall_proper. intros _. rewrite negb_true_iff, <- not_true_iff_false, ods_blank_spec. done.
  Qed.

  Lemma ods_skip_spec s (hdr : bool) hri (data : list (list (xcell O))) :
    let h := Z.to_nat (hri + if hdr then 1 else 0) in
    ods_skip s hdr hri data = take h data ++ filter (keeps blank s) (drop h data).
  Proof.
    cbv zeta. unfold ods_skip.
    assert (s = SkipNone ∨ s ≠ SkipNone) as [->|Hs] by (destruct s; [by left|by right|by right]).
    - rewrite filter_all by (apply list.Forall_forall; intros; exact I). by rewrite take_drop.
    - assert (∀ l : list (nat * list (xcell O)),
        filter (λ p, Z.of_nat p.1 < hri + (if hdr then 1 else 0) ∨
          match s with SkipAll => existsb (λ v, negb (ods_blank v)) p.2 | _ => forallb (λ v, negb (ods_blank v)) p.2 end = true) l
        = filter (λ p, Z.of_nat p.1 < hri + (if hdr then 1 else 0) ∨ keeps blank s p.2) l) as Hf.
      { intros l. apply list_filter_iff. intros p. by rewrite ods_keeps. }
      pose proof (filter_numbered (keeps blank s) (hri + if hdr then 1 else 0) data 0) as Hn. rewrite Z.sub_0_r in Hn.
      destruct s; [done| |]; rewrite <- Hn; f_equal; apply Hf.
  Qed.

  Definition header_at (hdr : bool) (ix : nat) (v : xcell O) : string :=
    if hdr then header_text str v else ("_" +:+ pretty (N.of_nat ix + 1)%N)%string.

  Lemma ods_columns_spec hdr columns w (rows : list (list (xcell O))) fields header_row : ∀ ix (t : table),
    Forall (λ row, length row = w) rows → (ix + length header_row = w)%nat → NoDup t.*1 →
    (∀ j v, header_row !! j = Some v → fields !! (ix + j)%nat = Some (header_at hdr (ix + j) v)) →
    ∃ t' d, ods_columns ty ps str hdr columns rows t.*1 ix header_row t = Ok t' ∧
      contents t' = contents t ++ map (λ p : string * nat, (p.1, map (cell_at p.2) rows)) d ∧ NoDup (t.*1 ++ d.*1) ∧
      d.*2 = filter (λ i, asked columns (default ""%string (fields !! i))) (seq ix (length header_row)) ∧
      (columns = None → fold_left (λ acc h, cs ← acc; n ← unique_name h cs; Some (cs ++ [n]))
          (take (length header_row) (drop ix fields)) (Some t.*1) = Some (t.*1 ++ d.*1)).
  Proof using Hps.
    induction header_row as [|v header_row IH]; intros ix t Hrect Hix Hnd Hfields.
    - exists t, []. cbn. rewrite !app_nil_r. split_and!; try done.
    - assert (Hf0 := Hfields 0%nat v eq_refl). rewrite Nat.add_0_r in Hf0. cbn [length] in Hix.
      assert (∀ j v0, header_row !! j = Some v0 → fields !! (S ix + j)%nat = Some (header_at hdr (S ix + j) v0)) as HfS.
      { intros j v0 Hj. specialize (Hfields (S j) v0 Hj). by rewrite <- plus_n_Sm in Hfields. }
      cbn [ods_columns].
      match goal with |- context [if ?c then ods_columns _ _ _ _ _ _ _ _ _ _ else _] =>
        assert (c = negb (bool_decide (asked columns (header_at hdr ix v)))) as -> end.
      { change (if hdr then match v with XNone => ""%string | _ => str v end else ("_" +:+ pretty (N.of_nat ix + 1)%N)%string)
          with (header_at hdr ix v). destruct columns as [cs|]; cbn [asked]; [|done].
        f_equal. }
      change (if hdr then match v with XNone => ""%string | _ => str v end else ("_" +:+ pretty (N.of_nat ix + 1)%N)%string)
          with (header_at hdr ix v).
      cbn [length seq]. 
      destruct (decide (asked columns (header_at hdr ix v))) as [Ha|Ha].
      2: { rewrite bool_decide_eq_false_2 by done. cbn [negb].
           destruct (IH (S ix) t Hrect) as (t' & d & E & Hc & Hn & Hd & Hdd); [lia|done|done|].
           exists t', d. split; [done|]. split; [done|]. split; [done|]. split.
           - rewrite filter_cons_False; [done|]. rewrite Hf0. done.
           - intros ->. done. }
      rewrite bool_decide_eq_true_2 by done. cbn [negb].
      destruct (unique_name_spec (header_at hdr ix v) t.*1) as (n & Hn & Hfresh & _). rewrite Hn.
      assert (JsonTable.map_res (λ row : list (xcell O), match row !! ix with Some v => Ok v | None => Err IndexError end) rows
        = Ok (map (cell_at ix) rows)) as ->.
      { clear -Hrect Hix. induction Hrect as [|row rows Hr _ IHr]; [done|]. cbn [JsonTable.map_res map]. unfold cell_at at 1.
        destruct (lookup_lt_is_Some_2 row ix) as [x ->]; [lia|]. cbn [res_bind]. rewrite IHr. done. }
      cbn [res_bind].
      assert ((tbl_set ty ps t n (map (cell_at ix) rows)).*1 = t.*1 ++ [n]) as Hkeys.
      { unfold tbl_set. rewrite dset_fresh by done. by rewrite fmap_app. }
      rewrite <- Hkeys.
      destruct (IH (S ix) (tbl_set ty ps t n (map (cell_at ix) rows)) Hrect) as (t' & d & E & Hc & Hn' & Hd & Hdd); [lia| |done|].
      { rewrite Hkeys. apply list.NoDup_app. split; [done|]. split; [|apply NoDup_singleton].
        intros y Hy Hy'. apply elem_of_list_singleton in Hy'. by subst. }
      exists t', ((n, ix) :: d). split; [done|]. split.
      { rewrite Hc. unfold tbl_set. rewrite contents_dset. unfold col_new. rewrite col_extend_iter by done.
        rewrite dset_fresh by (change (contents t).*1 with (names (contents t)); by rewrite contents_names).
        rewrite <- app_assoc. done. }
      split; [rewrite Hkeys, <- app_assoc in Hn'; exact Hn'|]. split.
      + rewrite fmap_cons, filter_cons_True by (by rewrite Hf0). cbn [snd]. by rewrite Hd.
      + intros Hnone. specialize (Hdd Hnone). rewrite (drop_S _ _ _ Hf0). cbn [take fold_left mbind option_bind]. rewrite Hn. cbn [mbind option_bind].
        rewrite <- Hkeys. rewrite Hdd, Hkeys, <- app_assoc. done.
  Qed.

  Lemma ods_result (data : list (list (xcell O))) w (hdr : bool) hri columns s start limit header :
    Forall (λ row, length row = w) data → 0 <= hri → data !! Z.to_nat hri = Some header → 0 <= start → 0 < limit →
    let kept := filter (keeps blank s) (drop (Z.to_nat (hri + if hdr then 1 else 0)) data) in
    let fields := if hdr then map (header_text str) header else map (λ i, ("_" +:+ pretty (N.of_nat i + 1)%N)%string) (seq 0 w) in
    hdr = true ∨ kept ≠ [] →
    ∃ (t : table) d, ods_reader ty ps str data hdr hri columns s start limit = Ok t ∧ chooses_all fields columns d ∧
      (columns = None → dedup_headers fields = Some d.*1) ∧
      contents t = map (λ p : string * nat, (p.1, map (cell_at p.2) (take (Z.to_nat limit) kept))) d.
  Proof using Hps.
    intros Hrect Hhri Hh Hs Hl kept fields Hhdr. unfold ods_reader. rewrite ods_skip_spec. fold kept.
    rewrite (proj2 (Z.ltb_ge _ _)) by lia. rewrite (proj2 (Z.leb_gt _ _)) by lia.
    assert (length header = w) as Hw.
    { rewrite list.Forall_forall in Hrect. apply Hrect. by eapply elem_of_list_lookup_2. }
    assert (Hlt := lookup_lt_Some _ _ _ Hh).
    set (h := Z.to_nat (hri + if hdr then 1 else 0)) in *.
    assert (length (take h data) = h) as Hth. { rewrite take_length. unfold h. destruct hdr; lia. }
    assert (Forall (λ row, length row = w) kept) as Hkw.
    { rewrite list.Forall_forall in Hrect. apply list.Forall_forall. intros row Hr. unfold kept in Hr.
      apply elem_of_list_filter in Hr as [_ Hr]. apply Hrect. apply elem_of_list_lookup in Hr as [i Hi]. rewrite lookup_drop in Hi.
      by eapply elem_of_list_lookup_2. }
    assert (∃ hr, znth (take h data ++ kept) hri = Some hr ∧ length hr = w ∧ (hdr = true → hr = header)) as (hr & -> & Hhr & Hsame).
    { unfold znth. rewrite (proj2 (Z.ltb_ge _ _)) by lia. unfold h in *. destruct hdr.
      - exists header. rewrite lookup_app_l by (rewrite Hth; lia). rewrite lookup_take by lia. done.
      - rewrite lookup_app_r by (rewrite Hth; lia). rewrite Hth. replace (Z.to_nat hri - Z.to_nat (hri + 0))%nat with 0%nat by lia.
        destruct Hhdr as [?|Hk]; [done|]. destruct kept as [|r kept']; [done|]. exists r. split; [done|]. split; [|done].
        apply list.Forall_cons in Hkw as [Hr _]. exact Hr. }
    rewrite (ods_rows_actual _ hdr hri start limit) by done. fold h.
    replace (drop h (take h data ++ kept)) with kept by (rewrite <- Hth at 1; by rewrite drop_app).
    destruct (ods_columns_spec hdr columns w (take (Z.to_nat limit) kept) fields hr 0 []) as (t & d & E & Hc & Hn & Hd & Hdd).
    - apply Forall_take. done.
    - lia.
    - constructor.
    - intros j v Hj. cbn [plus]. unfold fields, header_at. destruct hdr.
      + rewrite (Hsame eq_refl) in Hj. change (map ?f ?l) with (f <$> l). by rewrite list_lookup_fmap, Hj.
      + change (map ?f ?l) with (f <$> l). rewrite list_lookup_fmap.
        apply lookup_lt_Some in Hj. rewrite lookup_seq_lt by lia. done.
    - exists t, d. split; [exact E|]. cbn [app] in *.
      assert (length fields = w) as Hfl.
      { unfold fields. destruct hdr; [by rewrite map_length|by rewrite map_length, seq_length]. }
      split; [split; [done|by rewrite Hfl, Hd, Hhr]|]. split; [|done].
      intros Hnone. specialize (Hdd Hnone). rewrite drop_0, take_ge in Hdd by lia. exact Hdd.
  Qed.
End ods.

Section agree.
  Context {O T : Type} `{EqDecision O, EqDecision T} (ty : xcell O → T) (ps : Z).
  Context (str : xcell O → string) (dumps : O → list Z) (loads : list Z → O).
  Local Notation table := (table string (xcell O) T).
  Local Notation size := (λ o, zlen (dumps o)).

  Lemma readers_agree (rows : list (list (xcell O))) w max_row hri limit header :
    0 < ps → (∀ o, loads (dumps o) = o) →
    Forall (λ row, length row = w) rows → max_row = None ∨ max_row = Some (zlen rows) →
    0 <= hri → rows !! Z.to_nat hri = Some header → 0 < limit → zlen rows <= limit →
    Forall (Forall (λ v, cleaned v = v ∧ storable size v)) rows →
    ∃ t t' : table, excel_reader ty ps str dumps loads rows max_row true hri None SkipNone 0 limit = Ok t ∧
      ods_reader ty ps str rows true hri None SkipNone 0 limit = Ok t' ∧ contents t = contents t'.
  Proof.
    intros Hps Hloads Hrect Hmr Hhri Hh Hl Hlim Hcells.
    assert (∀ row v, row ∈ rows → v ∈ row → cleaned v = v ∧ storable size v) as Hcell.
    { intros row v Hr Hv. rewrite list.Forall_forall in Hcells. specialize (Hcells row Hr). rewrite list.Forall_forall in Hcells. by apply Hcells. }
    destruct (excel_result ty ps str dumps loads Hps Hloads rows w max_row true hri None SkipNone 0 limit header) as (d & Hch & Hdd & Hok & _);
      try done. cbv zeta in Hok.
    destruct (ods_result ty ps str Hps rows w true hri None SkipNone 0 limit header) as (t' & d' & Et' & Hch' & Hdd' & Hc'); try done; [by left|].
    assert (header ∈ rows) as Hhin by (by eapply elem_of_list_lookup_2).
    assert (map (λ c, header_text str (cleaned c)) header = map (header_text str) header) as Hf.
    { apply map_ext_in. intros c Hc. apply elem_of_list_In in Hc. by rewrite (proj1 (Hcell header c Hhin Hc)). }
    rewrite Hf in *. specialize (Hdd eq_refl). specialize (Hdd' eq_refl). rewrite Hdd in Hdd'. injection Hdd' as Hn.
    assert (d' = d) as ->.
    { destruct Hch as (_ & H2 & _). destruct Hch' as [_ H2'].
      rewrite filter_all in H2' by (apply list.Forall_forall; intros; exact I).
      rewrite <- H2 in H2'. clear -Hn H2'. revert d' Hn H2'. induction d as [|[a b] d IH]; intros [|[a' b'] d'] H1 H2; try done.
      rewrite !fmap_cons in *. cbn [fst snd] in *. injection H1 as -> H1. injection H2 as -> H2. f_equal. by apply IH. }
    assert (∀ row i, row ∈ rows → cleaned (cell_at i row) = cell_at i row) as Hclean.
    { intros row i Hr. unfold cell_at. destruct (row !! i) as [v|] eqn:Ev; [|done]. cbn. apply (Hcell row v Hr). by eapply elem_of_list_lookup_2. }
    set (tail := drop (Z.to_nat (hri + 1)) rows) in *.
    assert (∀ row, row ∈ tail → row ∈ rows) as Hin.
    { intros row H. apply elem_of_list_lookup in H as [i Hi]. unfold tail in Hi. rewrite lookup_drop in Hi. by eapply elem_of_list_lookup_2. }
    assert (length tail <= length rows)%nat as Htl by (unfold tail; rewrite drop_length; lia).
    change (Z.to_nat 0) with 0%nat in Hok. rewrite drop_0 in Hok. rewrite (take_ge tail) in Hok by lia.
    rewrite filter_all in Hok by (apply list.Forall_forall; intros; exact I).
    destruct Hok as (t & Et & Hc).
    - apply list.Forall_forall. intros row Hr%Hin. apply list.Forall_forall. intros v Hv.
      apply elem_of_list_In, in_map_iff in Hv as (p & <- & _). rewrite Hclean by done. unfold cell_at.
      destruct (row !! p.2) as [v|] eqn:Ev; [|exact I]. cbn. apply (Hcell row v Hr). by eapply elem_of_list_lookup_2.
    - exists t, t'. split; [done|]. split; [done|]. rewrite Hc, Hc'.
      rewrite filter_all by (apply list.Forall_forall; intros; exact I). rewrite take_ge by lia.
      apply map_ext. intros p. f_equal. apply map_ext_in. intros row Hr. apply elem_of_list_In, Hin in Hr. by apply Hclean.
  Qed.
End agree.
