(** Proofs of C93: [excel_reader] and [ods_reader]. *)
From Verif.Proof Require Import NamesProofs ColumnRead DictLemmas TableBase SmallProofs ExportProofs JsonTableProofs SheetPack SheetProofs.
From Verif.Spec Require Import SheetCells.
From Verif.Model Require Import SheetReader.
Local Open Scope list_scope.
Local Open Scope Z_scope.

Lemma index_of_spec k fields : match index_of k fields with
  | Some i => fields !! i = Some k ∧ ∀ j, (j < i)%nat → fields !! j ≠ Some k
  | None => k ∉ fields
  end.
Proof.
  induction fields as [|f fields IH]; cbn [index_of]; [apply not_elem_of_nil|].
  destruct (decide (f = k)) as [->|Hf]; [split; [done|lia]|].
  destruct (index_of k fields) as [i|]; cbn [fmap option_fmap option_map].
  - destruct IH as [H1 H2]. split; [done|]. intros [|j] Hj; cbn; [congruence|]. apply H2. lia.
  - apply not_elem_of_cons. done.
Qed.

Lemma field_loop fields cs : ∀ acc, NoDup acc.*1 → Forall (λ k, k ∈ fields) cs →
  ∃ new, fold_left (λ acc k, res_bind acc (λ d,
                   match index_of k fields with
                   | Some i => match unique_name k d.*1 with Some n => Ok (dset d n i) | None => Err OtherError end
                   | None => Err ValueError
                   end)) cs (Ok acc) = Ok (acc ++ new) ∧ NoDup (acc ++ new).*1 ∧
    Forall2 (λ k p, fields !! p.2 = Some k ∧ ∀ j, (j < p.2)%nat → fields !! j ≠ Some k) cs new ∧
    (NoDup (acc.*1 ++ cs) → new.*1 = cs).
Proof.
  induction cs as [|k cs IH]; intros acc Hnd Hall.
  - exists []. rewrite app_nil_r. split_and!; done.
  - apply list.Forall_cons in Hall as [Hk Hall]. cbn [fold_left res_bind].
    pose proof (index_of_spec k fields) as Hi. destruct (index_of k fields) as [i|]; [|done].
    destruct (unique_name_spec k acc.*1) as (n & Hn & Hfresh & Hcase). rewrite Hn. rewrite dset_fresh by done.
    destruct (IH (acc ++ [(n, i)])) as (new & E & H1 & H2 & H3); [|done|].
    { rewrite fmap_app. apply list.NoDup_app. split; [done|]. split; [|apply NoDup_singleton].
      intros x Hx Hx'. apply elem_of_list_singleton in Hx'. cbn in Hx'. by subst. }
    exists ((n, i) :: new). rewrite E, <- !app_assoc in *. split; [done|]. split; [done|]. split; [by constructor|].
    intros Hd. rewrite fmap_cons. cbn [fst].
    assert (k ∉ acc.*1) as Hka.
    { apply list.NoDup_app in Hd as (_ & Hd & _). intros Hin. apply (Hd _ Hin). left. }
    destruct Hcase as [[_ ->]|[Hin _]]; [|done]. f_equal. apply H3. rewrite fmap_app, <- app_assoc. exact Hd.
Qed.

Lemma field_dict_spec columns fields : match columns with Some cs => Forall (λ k, k ∈ fields) cs | None => True end →
  ∃ d, field_dict columns fields = Ok d ∧ chooses fields columns d ∧ (columns = None → dedup_headers fields = Some d.*1).
Proof.
  intros Hall. destruct columns as [cs|]; cbn [field_dict].
  - destruct (field_loop fields cs [] (NoDup_nil_2) Hall) as (new & E & H1 & H2 & H3). cbn [app] in *.
    exists new. split; [exact E|]. split; [|done]. split; [done|]. split; [done|]. intros H. apply H3. exact H.
  - destruct (dedup_headers_spec fields) as (ns & E & Hnd & Hl & _). rewrite E.
    exists (zip ns (seq 0 (length ns))). split; [done|].
    assert ((zip ns (seq 0 (length ns))).*1 = ns) as H1 by (apply fst_zip; rewrite seq_length; lia).
    split; [|by rewrite H1]. split; [by rewrite H1|]. split.
    + rewrite snd_zip by (rewrite seq_length; lia). by rewrite Hl.
    + intros Hf. rewrite H1. rewrite dedup_distinct in E by done. by injection E.
Qed.

Lemma field_dict_missing cs fields : ¬ Forall (λ k, k ∈ fields) cs → field_dict (Some cs) fields = Err ValueError.
Proof.
  cbn [field_dict]. generalize (@nil (string * nat)) as acc. induction cs as [|k cs IH]; intros acc Hn; [by destruct Hn|].
  cbn [fold_left res_bind]. pose proof (index_of_spec k fields) as Hi. destruct (index_of k fields) as [i|].
  - destruct (unique_name_spec k acc.*1) as (n & -> & _). apply IH. intros Hall. apply Hn. constructor; [|done].
    by eapply elem_of_list_lookup_2, Hi.
  - clear. induction cs; [done|]. cbn [fold_left res_bind]. done.
Qed.

Lemma filter_map {A B} (f : A → B) (P : B → Prop) `{∀ x, Decision (P x)} l :
  filter P (map f l) = map f (filter (λ x, P (f x)) l).
Proof.
  induction l as [|x l IH]; [done|]. cbn [map]. destruct (decide (P (f x))).
  - rewrite !filter_cons_True by done. cbn [map]. by rewrite IH.
  - rewrite !filter_cons_False by done. done.
Qed.

Section readers.
  Context {O T : Type} `{EqDecision O, EqDecision T} (ty : xcell O → T) (ps : Z).
  Context (str : xcell O → string) (dumps : O → list Z) (loads : list Z → O).
  Local Notation table := (table string (xcell O) T).
  Local Notation size := (λ o, zlen (dumps o)).
  Context (Hps : 0 < ps) (Hloads : ∀ o, loads (dumps o) = o).
  Local Notation blank := (λ v : xcell O, v = XNone).

  Lemma excel_result (rows : list (list (xcell O))) w max_row (hdr : bool) hri columns s start limit header :
    Forall (λ row, length row = w) rows → max_row = None ∨ max_row = Some (zlen rows) →
    0 <= hri → rows !! Z.to_nat hri = Some header → 0 <= start → 0 < limit →
    let fields := if hdr then map (λ c, header_text str (cleaned c)) header else map (λ i, pretty (N.of_nat i)) (seq 0 w) in
    match columns with Some cs => Forall (λ k, k ∈ fields) cs | None => True end →
    ∃ d, chooses fields columns d ∧ (columns = None → dedup_headers fields = Some d.*1) ∧
      let row_of row := map (λ p : string * nat, cleaned (cell_at p.2 row)) d in
      let kept := filter (λ row, keeps blank s (row_of row))
        (take (Z.to_nat (limit + 1)) (drop (Z.to_nat start) (drop (Z.to_nat (hri + if hdr then 1 else 0)) rows))) in
      (Forall (λ row, Forall (storable size) (row_of row)) kept →
        ∃ t : table, excel_reader ty ps str dumps loads rows max_row hdr hri columns s start limit = Ok t ∧
          contents t = map (λ p, (p.1, map (λ row, cleaned (cell_at p.2 row)) kept)) d) ∧
      (∀ t : table, excel_reader ty ps str dumps loads rows max_row hdr hri columns s start limit = Ok t →
        Forall (Forall (λ v, ∀ f, v = XFloat f → 0 <= f < 2 ^ 64)) rows →
        Forall (λ row, Forall (storable size) (row_of row)) kept).
  Proof using Hps Hloads.
    intros Hrect Hmr Hhri Hh Hs Hl fields Hcols.
    assert (length header = w) as Hw.
    { rewrite list.Forall_forall in Hrect. apply Hrect. by eapply elem_of_list_lookup_2. }
    destruct (field_dict_spec columns fields Hcols) as (d & Hd & Hch & Hdd). exists d. split; [done|]. split; [done|]. cbv zeta.
    assert (length fields = w) as Hfl.
    { unfold fields. destruct hdr; [by rewrite map_length|by rewrite map_length, seq_length]. }
    assert (∀ i, i ∈ d.*2 → (i < w)%nat) as Hused.
    { intros i Hi. destruct Hch as [_ Hch]. destruct columns as [cs|].
      - destruct Hch as [Hch _]. apply elem_of_list_fmap in Hi as (p & -> & Hp).
        apply elem_of_list_lookup in Hp as [j Hj]. destruct (Forall2_lookup_r _ _ _ _ _ Hch Hj) as (k & _ & Hk & _).
        apply lookup_lt_Some in Hk. by rewrite Hfl in Hk.
      - destruct Hch as [Hch _]. rewrite Hch in Hi. apply elem_of_seq in Hi. lia. }
    assert (NoDup d.*1) as Hnd by apply Hch.
    assert (excel_reader ty ps str dumps loads rows max_row hdr hri columns s start limit
      = read_rows ty ps dumps loads s d.*2 d.*1 (excel_rows rows hdr hri max_row start limit) (map (λ n, (n, [])) d.*1) None 0) as Ex.
    { unfold excel_reader. rewrite (proj2 (Z.ltb_ge _ _)) by lia. rewrite (proj2 (Z.leb_gt _ _)) by lia.
      unfold znth. rewrite (proj2 (Z.ltb_ge _ _)) by lia. rewrite Hh.
      match goal with |- context [field_dict columns ?f] => assert (f = fields) as -> end; [|by rewrite Hd].
      unfold fields. destruct hdr.
      - apply map_ext. intros c. rewrite strip_escape_cleaned. unfold header_text. by destruct (cleaned c).
      - by rewrite map_length, Hw. }
    rewrite Ex, (excel_rows_actual rows hdr hri max_row start limit) by done.
    set (taken := take _ (drop _ (drop _ rows))).
    assert (∀ row, row ∈ taken → row ∈ rows) as Hin.
    { intros row H. unfold taken in H. apply elem_of_take in H as (i & Hi & _). rewrite !lookup_drop in Hi. by eapply elem_of_list_lookup_2. }
    assert (Forall (λ row, ∀ i, i ∈ d.*2 → (i < length row)%nat) taken) as Hwide.
    { rewrite list.Forall_forall. intros row Hr i Hi. rewrite list.Forall_forall in Hrect. rewrite (Hrect row) by auto. auto. }
    assert (∀ row : list (xcell O), pick d.*2 row = map (λ p : string * nat, cleaned (cell_at p.2 row)) d) as Hpick.
    { intros row. unfold pick. change (d.*2) with (map snd d). by rewrite map_map. }
    assert (filter (keeps blank s) (map (pick d.*2) taken)
      = map (λ row, map (λ p : string * nat, cleaned (cell_at p.2 row)) d)
          (filter (λ row, keeps blank s (map (λ p : string * nat, cleaned (cell_at p.2 row)) d)) taken)) as Hf.
    { rewrite (map_ext _ _ Hpick). apply filter_map. }
    split.
    - intros Hst. destruct (read_rows_spec ty ps dumps loads Hps Hloads s d.*2 d.*1 taken (map (λ n, (n, [])) d.*1) None 0
        (replicate (length d.*1) []) (replicate (length d.*1) [])) as (t & Et & Hc); try done.
      + by rewrite !fmap_length.
      + clear. unfold contents. induction (d.*1) as [|n l IH]; [done|]. cbn. by rewrite IH.
      + by rewrite replicate_length.
      + by rewrite replicate_length.
      + by left.
      + rewrite Hf. rewrite list.Forall_forall in Hst. rewrite list.Forall_forall. intros vs Hvs.
        apply elem_of_list_In, in_map_iff in Hvs as (row & <- & Hrow). apply Hst. by apply elem_of_list_In.
      + exists t. split; [done|]. rewrite Hc, Hf.
        rewrite <- (replicate_length (length d.*1) (@nil (xcell O))) at 2. rewrite zip_app_nil.
        rewrite fmap_length.
        assert (replicate (length d) (@nil (xcell O)) = map (λ _, []) d) as ->.
        { clear. induction d; [done|]. cbn. by f_equal. }
        set (kept := filter _ taken). clearbody kept. clear.
        assert (∀ (e : list (string * nat)) (K : list (list (xcell O))),
          fold_left add_row (map (λ row, map (λ p : string * nat, cleaned (cell_at p.2 row)) e) K) (map (λ _, []) e)
          = map (λ p : string * nat, map (λ row, cleaned (cell_at p.2 row)) K) e) as Hadd.
        { intros e K. induction K as [|r K IH] using rev_ind; [done|].
          rewrite map_app, fold_left_app, IH. cbn [map fold_left]. clear IH. unfold add_row.
          induction e as [|p e IH]; [done|]. cbn [map zip_with]. rewrite map_app, IH. done. }
        rewrite Hadd. clear. induction d as [|p d IH]; [done|]. cbn. by rewrite IH.
    - intros t Ht Hfl64. pose proof (read_rows_inv ty ps dumps loads Hps s d.*2 d.*1 taken _ None 0 t ltac:(by rewrite !fmap_length) Hwide
        ltac:(by left) Ht) as Hall. rewrite Hf in Hall. rewrite list.Forall_forall in Hall. rewrite list.Forall_forall. intros row Hrow.
      assert (Hrow' := Hrow). apply elem_of_list_filter in Hrow' as [_ Hrow'%Hin].
      specialize (Hall (map (λ p : string * nat, cleaned (cell_at p.2 row)) d)).
      assert (map (λ p : string * nat, cleaned (cell_at p.2 row)) d
        ∈ map (λ row, map (λ p : string * nat, cleaned (cell_at p.2 row)) d)
          (filter (λ row, keeps blank s (map (λ p : string * nat, cleaned (cell_at p.2 row)) d)) taken)) as Hm.
      { apply elem_of_list_In, in_map_iff. exists row. split; [done|]. by apply elem_of_list_In. }
      specialize (Hall Hm). rewrite list.Forall_forall in Hall. rewrite list.Forall_forall. intros v Hv.
      destruct (Hall v Hv) as [b Hb]. apply (pack_storable dumps v b Hb). intros f ->.
      apply elem_of_list_In, in_map_iff in Hv as (p & Hp & _).
      rewrite list.Forall_forall in Hfl64. specialize (Hfl64 row Hrow'). rewrite list.Forall_forall in Hfl64. unfold cell_at in Hp.
      destruct (row !! p.2) as [v|] eqn:Ev; cbn in Hp; [|done]. apply (Hfl64 v); [by eapply elem_of_list_lookup_2|].
      destruct v; cbn in Hp; congruence.
  Qed.
End readers.
