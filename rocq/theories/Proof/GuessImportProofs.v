(** The import with guessed types. *)
From Coq Require Import Sorted.
From Verif.Spec Require Import GuessedPage.
From Verif.Model Require Import GuessImport.
From Verif.Proof Require Import NamesProofs CsvScan GuessProofs GuessKinds GuessNumbers GuessWords.
Local Open Scope Z_scope.

(** ** One page *)
Lemma with_gaps_of fa k col cells : k ≠ Words →
  Forall2 (field_of (f_parse fa) k) col cells → with_gaps (value_of (f_parse fa) k) col cells.
Proof.
  intros Hk H. unfold with_gaps. eapply list.Forall2_impl; [exact H|]. intros f c [(_ & Hb & Hc)|Hv]; [by left|by right].
Qed.

Lemma no_gaps k parsed col cells : Forall2 (field_of parsed k) col cells → (∀ f, f ∈ col → ¬ blank f) →
  ∃ texts, col = map Some texts ∧ Forall2 (value_of parsed k) texts cells.
Proof.
  induction 1 as [|f c col cells Hf _ IH]; intros Hb; [by exists []|].
  destruct IH as (texts & -> & Ht); [intros g Hg; apply Hb; by right|].
  destruct Hf as [(_ & Hx & _)|(s & -> & Hs)]; [destruct (Hb f); [left|done]|]. exists (s :: texts). split; [done|by constructor].
Qed.

Lemma blank_dec f : {blank f} + {¬ blank f}.
Proof.
  destruct f as [[|c s]|].
  - left. by right.
  - right. intros [|]; done.
  - left. by left.
Qed.

Lemma import_kind fa k col cells : col ≠ [] → Forall2 (field_of (f_parse fa) k) col cells →
  ∃ p, import_page fa false col = Ok (p, cells).
Proof.
  intros Hne H. assert ({k = Words} + {k ≠ Words}) as [->|Hk] by (destruct k; by (left + right)).
  { destruct (no_gaps Words (f_parse fa) col cells H) as (texts & -> & Ht).
    { intros f Hf Hb. apply elem_of_list_lookup in Hf as [i Hi].
      destruct (Forall2_lookup_l _ _ _ _ _ H Hi) as (c & _ & [(E & _)|(s & -> & (((x & r & -> & _) & _) & _))]); [done|].
      by destruct Hb as [|]. }
    assert (cells = map CStr texts) as ->.
    { clear -Ht. induction Ht as [|s c texts cells [_ ->] _ IH]; [done|]. cbn [map]. by rewrite IH. }
    eexists. apply import_words; [by destruct texts|].
    clear -Ht. induction Ht as [|s c texts cells [Hw _] _ IH]; [constructor|by constructor]. }
  pose proof (with_gaps_of fa k col cells Hk H) as Hg.
  destruct k; try done; cbn [value_of] in Hg.
  - eexists. by apply import_dates.
  - eexists. by apply import_compact.
  - eexists. by apply import_moments.
  - eexists. by apply import_times.
  - eexists. by apply import_bools.
  - destruct (Exists_dec blank col blank_dec) as [Hb|Hb].
    + eexists. apply import_ints_gaps; [by apply list.Exists_exists|exact Hg].
    + destruct (no_gaps Ints (f_parse fa) col cells H) as (texts & -> & Ht).
      { intros f Hf Hbl. apply Hb, list.Exists_exists. by exists f. }
      assert (∃ ns, cells = map CInt ns ∧ Forall2 (λ s n, whole_text n s ∧ - 2 ^ 63 < n < 2 ^ 63) texts ns ∧ Forall not_compact texts)
        as (ns & -> & Hns & Hnc).
      { clear -Ht. induction Ht as [|s c texts cells [(n & Hw & Hn & ->) Hnc] _ IH].
        - exists []. repeat constructor.
        - destruct IH as (ns & -> & IH1 & IH2). exists (n :: ns). split; [done|]. split; constructor; done. }
      eexists. apply import_ints; [exact Hns|]. destruct texts as [|s texts]; [done|]. exists s. split; [left|].
      by inversion Hnc.
  - destruct (Exists_dec blank col blank_dec) as [Hb|Hb].
    + eexists. apply import_decimals_gaps; [by apply list.Exists_exists|exact Hg].
    + destruct (no_gaps Decimals (f_parse fa) col cells H) as (texts & -> & Ht).
      { intros f Hf Hbl. apply Hb, list.Exists_exists. by exists f. }
      assert (cells = map (λ s, CFloat (f_parse fa s)) texts ∧ Forall plain_decimal texts) as [-> Hpd].
      { clear -Ht. induction Ht as [|s c texts cells [Hp ->] _ IH]; [split; [done|constructor]|].
        destruct IH as [-> IH]. split; [done|by constructor]. }
      eexists. apply import_floats.
      * intros s Hs. right. by apply (proj1 (list.Forall_forall _ _) Hpd).
      * destruct texts as [|s texts]; [done|]. exists s. split; [left|]. by inversion Hpd.
Qed.

(** ** The fields of a column *)
Lemma found_lookup (I : list nat) k (fields : list (list chr)) :
  StronglySorted lt I → Forall (λ i, k <= i)%nat I →
  ∀ (mem : nat → Prop) `{∀ i, Decision (mem i)}, (∀ i, (k <= i)%nat → mem i ↔ i ∈ I) → ∀ j,
  omap (λ p : nat * list chr, if decide (mem p.1) then Some p.2 else None) (zip (seq k (length fields)) fields) !! j =
  (I !! j ≫= λ i, fields !! (i - k)%nat).
Proof.
  intros Hs Hk mem Hdec Hmem. revert k I mem Hdec Hs Hk Hmem. induction fields as [|f fields IH]; intros k I mem Hdec Hs Hk Hmem j.
  { cbn. by destruct (I !! j). }
  cbn [length seq zip zip_with omap list_omap fst snd].
  change (list_omap _ _ ?f ?l) with (omap f l).
  assert (∀ I' j, Forall (λ i, S k <= i)%nat I' →
     (I' !! j ≫= λ i, (f :: fields) !! (i - k)%nat) = (I' !! j ≫= λ i, fields !! (i - S k)%nat)) as Hmap.
  { clear. intros I' j HI. destruct (I' !! j) as [i|] eqn:E; [|done]. cbn [mbind option_bind].
    apply elem_of_list_lookup_2 in E. pose proof (proj1 (list.Forall_forall _ _) HI i E) as Hi. cbn beta in Hi.
    replace (i - k)%nat with (S (i - S k)) by lia. done. }
  destruct (decide (mem k)) as [Hm|Hm].
  - apply Hmem in Hm; [|lia]. destruct I as [|i I]; [set_solver|].
    inversion Hs as [|? ? Hs' Hlt]; subst. inversion Hk as [|? ? Hki Hk']; subst.
    assert (i = k) as ->.
    { apply elem_of_cons in Hm as [->|Hm]; [done|]. pose proof (proj1 (list.Forall_forall _ _) Hlt k Hm). cbn beta in *. lia. }
    assert (Forall (λ i, S k <= i)%nat I) as HkI by (eapply list.Forall_impl; [exact Hlt|]; cbn beta; intros; lia).
    destruct j as [|j]; [cbn; by rewrite Nat.sub_diag|].
    cbn [lookup list_lookup]. change (list_lookup j ?l) with (l !! j). rewrite (IH (S k) I mem Hdec Hs' HkI).
    + rewrite <- Hmap by done. done.
    + intros i Hi. rewrite Hmem by lia. rewrite elem_of_cons. split; [|tauto]. intros [->|?]; [lia|done].
  - assert (Forall (λ i, S k <= i)%nat I) as Hk'.
    { apply list.Forall_forall. intros i Hi. pose proof (proj1 (list.Forall_forall _ _) Hk i Hi) as Hki. cbn beta in Hki.
      destruct (decide (i = k)) as [->|]; [|lia]. exfalso. apply Hm, Hmem; [lia|done]. }
    rewrite (IH (S k) I mem Hdec Hs Hk'); [by rewrite <- Hmap by done|]. intros i Hi. apply Hmem. lia.
Qed.

Lemma row_found_lookup I row j ix : StronglySorted lt I → I !! j = Some ix → row_found I row !! j = row !! ix.
Proof.
  intros Hs Hj. unfold row_found.
  pose proof (found_lookup I 0 row Hs) as H. specialize (H ltac:(apply list.Forall_forall; intros; lia) (λ i, i ∈ I) _ ltac:(done) j).
  cbn beta in H. etrans; [exact H|]. rewrite Hj. cbn [mbind option_bind]. by rewrite Nat.sub_0_r.
Qed.

Lemma task_column_spec I rows j ix : StronglySorted lt I → I !! j = Some ix →
  task_column I rows j = map (λ row, row !! ix) rows.
Proof. intros Hs Hj. apply map_ext. intros row. by apply row_found_lookup. Qed.

(** ** The tasks are the pages *)
Lemma task_loop_pages fuel first max_line ps j : 0 < ps → (Z.to_nat (max_line - (first + Z.of_nat j * ps)) <= fuel)%nat →
  (∀ t, t ∈ task_loop fuel (first + Z.of_nat j * ps) max_line ps →
     ∃ i, t.1 = first + Z.of_nat i * ps ∧ t.1 < max_line ∧ t.2 = Z.min ps (max_line - t.1)) ∧
  (∀ i, (j <= i)%nat → first + Z.of_nat i * ps < max_line →
     (first + Z.of_nat i * ps, Z.min ps (max_line - (first + Z.of_nat i * ps))) ∈
       task_loop fuel (first + Z.of_nat j * ps) max_line ps).
Proof.
  intros Hps. revert j. induction fuel as [|fuel IH]; intros j Hf; cbn [task_loop].
  { split; [intros t Ht; by apply elem_of_nil in Ht|]. intros i Hji Hi. exfalso. assert (Z.of_nat j * ps <= Z.of_nat i * ps) by nia. lia. }
  destruct (Z.ltb_spec (first + Z.of_nat j * ps) max_line) as [Hlt|Hge].
  2:{ split; [intros t Ht; by apply elem_of_nil in Ht|]. intros i Hji Hi. exfalso. assert (Z.of_nat j * ps <= Z.of_nat i * ps) by nia. lia. }
  cbv zeta.
  destruct (Z.le_gt_cases (first + Z.of_nat j * ps + ps) max_line) as [Hle|Hgt].
  - replace (Z.min (first + Z.of_nat j * ps + ps) max_line) with (first + Z.of_nat (S j) * ps) by nia.
    destruct (IH (S j)) as [IH1 IH2]; [nia|]. split.
    + intros t Ht. apply elem_of_cons in Ht as [->|Ht]; [|by apply IH1]. exists j. cbn [fst snd]. split; [done|]. split; [done|]. nia.
    + intros i Hji Hi. destruct (decide (i = j)) as [->|Hn].
      * apply elem_of_cons. left. f_equal. nia.
      * apply elem_of_cons. right. apply IH2; [lia|done].
  - replace (Z.min (first + Z.of_nat j * ps + ps) max_line) with max_line by lia.
    assert (task_loop fuel max_line max_line ps = []) as -> by (destruct fuel; cbn [task_loop]; [done|by rewrite Z.ltb_irrefl]).
    split.
    + intros t Ht. apply elem_of_list_singleton in Ht as ->. exists j. cbn [fst snd]. split; [done|]. split; [done|]. lia.
    + intros i Hji Hi. assert (i = j) as -> by nia. apply elem_of_list_singleton. f_equal. lia.
Qed.

Lemma task_pages (recs : list (list (list chr))) start limit (hdr : bool) header_row ps :
  0 < ps → (∀ i, start = Some i → 0 <= i) → (∀ l, limit = Some l → 0 <= l) → 0 <= header_row →
  let ts := import_tasks (Z.of_nat (length recs)) start limit hdr header_row ps in
  let data := chosen_rows start limit hdr header_row recs in
  let rows t := take (Z.to_nat t.2) (drop (Z.to_nat t.1) recs) in
  (∀ t, t ∈ ts → ∃ i, (i * Z.to_nat ps < length data)%nat ∧ rows t = page_rows (Z.to_nat ps) i data) ∧
  (∀ i, (i * Z.to_nat ps < length data)%nat → ∃ t, t ∈ ts ∧ rows t = page_rows (Z.to_nat ps) i data).
Proof.
  intros Hps Hstart Hlimit Hhr. cbv zeta. unfold import_tasks.
  assert (0 <= default 0 start) as Hs0 by (destruct start as [i|]; cbn; [by apply Hstart|lia]).
  set (off := (if hdr then 1 else 0) + header_row). assert (0 <= off) as Hoff by (unfold off; destruct hdr; lia).
  set (n := Z.of_nat (length recs)).
  set (ri := default 0 start + off).
  set (ml := if 0 <=? default (-1) limit then Z.min n (default (-1) limit + default 0 start + off) else n).
  destruct (task_loop_pages (Z.to_nat (ml - ri)) ri ml ps 0 Hps) as [H1 H2]; [cbn; lia|].
  change (Z.of_nat 0 * ps) with 0 in H1, H2. rewrite Z.add_0_r in H1, H2.
  assert (ml <= n) as Hmln by (unfold ml; destruct (0 <=? _); lia).
  assert (chosen_rows start limit hdr header_row recs = take (Z.to_nat (ml - ri)) (drop (Z.to_nat ri) recs)) as Hdata.
  { unfold chosen_rows. cbv zeta. rewrite drop_drop.
    replace (Nat.add (Z.to_nat (header_row + (if hdr then 1 else 0))) (Z.to_nat (default 0 start))) with (Z.to_nat ri)
      by (unfold ri, off; destruct hdr; lia).
    assert (length (drop (Z.to_nat ri) recs) = Z.to_nat (n - ri)) as Hl by (rewrite drop_length; unfold n, ri; lia).
    destruct limit as [l|].
    - specialize (Hlimit l eq_refl).
      assert (ml = Z.min n (l + ri)) as ->.
      { unfold ml. change (default (-1) (Some l)) with l. rewrite (proj2 (Z.leb_le 0 l)) by done. f_equal. unfold ri. lia. }
      destruct (Z.le_gt_cases n (l + ri)) as [Hc|Hc].
      + rewrite Z.min_l by lia. rewrite !take_ge by lia. done.
      + rewrite Z.min_r by lia. f_equal. lia.
    - change ml with n. rewrite take_ge; [done|]. lia. }
  rewrite Hdata.
  assert (length (take (Z.to_nat (ml - ri)) (drop (Z.to_nat ri) recs)) = Z.to_nat (ml - ri)) as Hlen.
  { rewrite take_length, drop_length. unfold n, ri in *. lia. }
  rewrite Hlen.
  assert (∀ i, ri + Z.of_nat i * ps < ml →
    take (Z.to_nat (Z.min ps (ml - (ri + Z.of_nat i * ps)))) (drop (Z.to_nat (ri + Z.of_nat i * ps)) recs) =
    page_rows (Z.to_nat ps) i (take (Z.to_nat (ml - ri)) (drop (Z.to_nat ri) recs))) as Hpage.
  { intros i Hi. unfold page_rows.
    assert (0 <= Z.of_nat i * ps) as Hip by nia. assert (Z.to_nat (Z.of_nat i * ps) = i * Z.to_nat ps)%nat as Hip' by nia.
    replace (Z.to_nat (ml - ri)) with (i * Z.to_nat ps + Z.to_nat (ml - (ri + Z.of_nat i * ps)))%nat by lia.
    rewrite <- take_drop_commute, drop_drop, take_take. f_equal; [lia|]. f_equal. unfold ri in *. lia. }
  assert (∀ i, Z.of_nat (i * Z.to_nat ps) = Z.of_nat i * ps) as Hip by (intros i; nia).
  split.
  - intros t Ht. destruct (H1 t Ht) as (i & Ha & Hb & Hc). exists i. pose proof (Hip i). split; [lia|]. rewrite Hc, Ha. apply Hpage. lia.
  - intros i Hi. pose proof (Hip i). assert (ri + Z.of_nat i * ps < ml) as Hi' by lia. eexists. split; [apply H2; [lia|exact Hi']|]. cbn [fst snd]. by apply Hpage.
Qed.

(** ** The whole import *)
Lemma guess_task_ok fa s rows I t recs (page : nat → list (list (list chr)) → list cell) :
  StronglySorted lt I → rows = filter (kept s) (take (Z.to_nat t.2) (drop (Z.to_nat t.1) recs)) →
  (∀ ix, ix ∈ I → ∃ p, import_page fa false (map (λ row, row !! ix) rows) = Ok (p, page ix rows)) →
  guess_task fa false s (drop (Z.to_nat t.1) recs, true) I t.2 = Some (map (λ ix, page ix rows) I).
Proof.
  intros Hs -> Hp. unfold guess_task. cbn [fst snd]. rewrite task_rows_spec. cbn [mbind option_bind]. rewrite Z.sub_0_r.
  set (rows := filter (kept s) _) in *.
  transitivity (Some (map (λ j, page (default 0%nat (I !! j)) rows) (seq 0 (length I)))).
  - apply mapM_all. intros j Hj. apply elem_of_seq in Hj. destruct (lookup_lt_is_Some_2 I j) as [ix Hix]; [lia|].
    rewrite (task_column_spec I rows j ix Hs Hix), Hix.
    destruct (Hp ix) as [p ->]; [by eapply elem_of_list_lookup_2|]. done.
  - f_equal. apply list_eq. intros j. change (map ?f ?l) with (f <$> l). rewrite !list_lookup_fmap.
    destruct (I !! j) as [ix|] eqn:Ej.
    + rewrite lookup_seq_lt by (by eapply lookup_lt_Some). cbn [fmap option_fmap option_map Nat.add]. by rewrite Ej.
    + rewrite lookup_seq_ge by (by apply lookup_ge_None in Ej). done.
Qed.

(** pieces of two lists related element by element *)
Lemma pieces_cells {A B} (R : A → B → Prop) (l : list (list A)) (cells : list B) : Forall2 R (concat l) cells →
  ∃ cs, cells = concat cs ∧ Forall2 (Forall2 R) l cs.
Proof.
  revert cells. induction l as [|x l IH]; intros cells H; cbn [concat] in H.
  - apply Forall2_nil_inv_l in H as ->. by exists [].
  - apply Forall2_app_inv_l in H as (c1 & c2 & H1 & H2 & ->). destruct (IH _ H2) as (cs & -> & Hc).
    exists (c1 :: cs). split; [done|by constructor].
Qed.

Lemma guess_import_spec fa kinds cells hn digits dia text columns (hdr : bool) header_row ps s start limit recs header fields names :
  0 < ps → (∀ i, start = Some i → 0 <= i) → (∀ l, limit = Some l → 0 <= l) → 0 <= header_row →
  parse_csv dia text = (recs, true) → recs !! Z.to_nat header_row = Some header →
  field_names hn digits hdr header = Some fields →
  let imp := default fields columns in
  (∀ c, c ∈ imp → c ∈ fields) → dedup_headers imp = Some names →
  (∀ ix src, fields !! ix = Some src → src ∈ imp →
    Forall2 (field_of (f_parse fa) (kinds ix)) (map (λ row, row !! ix) (wanted_rows s start limit hdr header_row recs)) (cells ix)) →
  (∀ i, let page := page_rows (Z.to_nat ps) i (chosen_rows start limit hdr header_row recs) in
     page ≠ [] → Exists (kept s) page) →
  ∃ tbl, text_import_with (guess_task fa false s) hn digits dia text columns hdr header_row ps start limit = Some tbl ∧
    tbl.*1 = names ∧ length tbl = length imp ∧
    ∀ i name pages src, tbl !! i = Some (name, pages) → imp !! i = Some src →
      ∃ ix, fields !! ix = Some src ∧ concat pages = cells ix.
Proof.
  intros Hps Hstart Hlimit Hhr Hparse Hheader Hfields imp Himp Hnames Hcells Hkept.
  destruct (scanned _ _ _ Hparse) as (offs & Hfind & Hoff).
  set (pg := λ ix (rows : list (list (list chr))),
    match import_page fa false (map (λ row, row !! ix) (filter (kept s) rows)) with Ok p => p.2 | Err _ => [] end).
  set (ts := import_tasks (Z.of_nat (length recs)) start limit hdr header_row ps).
  set (trows := λ t : Z * Z, take (Z.to_nat t.2) (drop (Z.to_nat t.1) recs)).
  destruct (task_pages recs start limit hdr header_row ps Hps Hstart Hlimit Hhr) as [Htp _]. fold ts in Htp.
  assert (∀ t, t ∈ ts → filter (kept s) (trows t) ≠ []) as Hne.
  { intros t Ht. destruct (Htp t Ht) as (i & Hi & E). change (trows t = page_rows (Z.to_nat ps) i (chosen_rows start limit hdr header_row recs)) in E.
    rewrite E. specialize (Hkept i). cbv zeta in Hkept.
    assert (page_rows (Z.to_nat ps) i (chosen_rows start limit hdr header_row recs) ≠ []) as Hn.
    { intros E0. apply (f_equal length) in E0. unfold page_rows in E0. rewrite take_length, drop_length in E0. cbn [length] in E0. lia. }
    specialize (Hkept Hn). apply list.Exists_exists in Hkept as (row & Hrow & Hk).
    intros E0. assert (row ∈ filter (kept s) (page_rows (Z.to_nat ps) i (chosen_rows start limit hdr header_row recs))) as Hin
      by (by apply elem_of_list_filter). rewrite E0 in Hin. by apply elem_of_nil in Hin. }
  assert (wanted_rows s start limit hdr header_row recs = concat (map (λ t, filter (kept s) (trows t)) ts)) as Hwanted.
  { unfold wanted_rows. rewrite concat_map_bind, <- filter_bind. f_equal. symmetry. exact (tasks_data recs start limit hdr header_row ps Hps Hstart Hlimit Hhr). }
  assert (∀ ix src, fields !! ix = Some src → src ∈ imp →
    cells ix = concat (map (λ t, pg ix (trows t)) ts) ∧
    ∀ t, t ∈ ts → ∃ p, import_page fa false (map (λ row, row !! ix) (filter (kept s) (trows t))) = Ok (p, pg ix (trows t))) as Hcol.
  { intros ix src Hix Hsrc. specialize (Hcells ix src Hix Hsrc). rewrite Hwanted in Hcells.
    rewrite concat_map_bind, map_bind, <- concat_map_bind in Hcells.
    destruct (pieces_cells _ _ _ Hcells) as (cs & -> & HF). change (map ?f ts) with (f <$> ts) in HF. rewrite Forall2_fmap_l in HF.
    clear Hcells Hwanted Htp.
    induction HF as [|t c ts' cs Ht _ IH]; [split; [done|intros t Ht; by apply elem_of_nil in Ht]|].
    destruct (import_kind fa (kinds ix) (map (λ row, row !! ix) (filter (kept s) (trows t))) c) as [p Hp]; [|exact Ht|].
    { intros E. apply map_eq_nil in E. apply (Hne t); [left|done]. }
    assert (pg ix (trows t) = c) as E by (unfold pg; by rewrite Hp).
    destruct IH as [IH1 IH2]; [intros t' Ht'; apply Hne; by right|]. split.
    - cbn [map concat]. by rewrite E, IH1.
    - intros t' Ht'. apply elem_of_cons in Ht' as [->|Ht']; [|by apply IH2]. exists p. by rewrite E. }
  destruct (import_with_spec (guess_task fa false s) pg
    hn digits (find_newlines dia text) (λ offset, parse_csv dia (drop (Z.to_nat offset) text))
    columns hdr header_row ps start limit offs recs header fields names Hps Hstart Hhr Hfind Hoff Hheader Hfields Himp Hnames)
    as (tbl & Htbl & Hn & Hl & Hcols).
  { intros I t HsI HI Ht. 
    rewrite (guess_task_ok fa s _ I t recs (λ ix _, pg ix (trows t)) HsI eq_refl); [done|].
    intros ix Hix. destruct (HI ix Hix) as (src & Hsrc & Hin). destruct (Hcol ix src Hsrc Hin) as [_ H]. by apply H. }
  exists tbl. split; [exact Htbl|]. split; [done|]. split; [done|].
  intros i name pages src Hi Hsrc. destruct (Hcols i name pages src Hi Hsrc) as (ix & Hix & ->). exists ix. split; [done|].
  symmetry. apply (Hcol ix src Hix). by eapply elem_of_list_lookup_2.
Qed.

(** ** A page without rows *)
Lemma import_page_nil fa checks : import_page fa checks [] = Err OtherError.
Proof. reflexivity. Qed.

Lemma mapM_fails {A B} (f : A → option B) l x : x ∈ l → f x = None → mapM f l = None.
Proof.
  intros Hx Hf. destruct (mapM f l) as [ys|] eqn:E; [|done]. apply mapM_Some_1 in E.
  apply elem_of_list_lookup in Hx as [i Hi]. destruct (Forall2_lookup_l _ _ _ _ _ E Hi) as (y & _ & Hy). congruence.
Qed.

Lemma guess_task_empty fa checks s I t recs : I ≠ [] →
  filter (kept s) (take (Z.to_nat t.2) (drop (Z.to_nat t.1) recs)) = [] →
  guess_task fa checks s (drop (Z.to_nat t.1) recs, true) I t.2 = None.
Proof.
  intros HI Hrows. unfold guess_task. cbn [fst snd]. rewrite task_rows_spec. cbn [mbind option_bind]. rewrite Z.sub_0_r, Hrows.
  apply (mapM_fails _ _ 0%nat); [|done]. apply elem_of_seq. destruct I; [done|cbn [length]; lia].
Qed.

Lemma empty_page_fails fa checks hn digits dia text columns (hdr : bool) header_row ps s start limit recs i :
  0 < ps → (∀ i, start = Some i → 0 <= i) → (∀ l, limit = Some l → 0 <= l) → 0 <= header_row →
  parse_csv dia text = (recs, true) → header_row < Z.of_nat (length recs) → columns ≠ Some [] →
  (∀ header, recs !! Z.to_nat header_row = Some header → header ≠ []) →
  let page := page_rows (Z.to_nat ps) i (chosen_rows start limit hdr header_row recs) in
  page ≠ [] → (∀ row, row ∈ page → ¬ kept s row) →
  text_import_with (guess_task fa checks s) hn digits dia text columns hdr header_row ps start limit = None.
Proof.
  intros Hps Hstart Hlimit Hhr Hparse Hh Hcolumns Hheader page Hpage Hskip.
  destruct (scanned _ _ _ Hparse) as (offs & Hfind & Hoff).
  destruct (task_pages recs start limit hdr header_row ps Hps Hstart Hlimit Hhr) as [_ Htp].
  destruct (Htp i) as (t & Ht & E).
  { destruct (decide (i * Z.to_nat ps < length (chosen_rows start limit hdr header_row recs))%nat) as [|Hge]; [done|].
    exfalso. apply Hpage. unfold page, page_rows. rewrite drop_ge by lia. apply take_nil. }
  fold page in E.
  assert (filter (kept s) (take (Z.to_nat t.2) (drop (Z.to_nat t.1) recs)) = []) as Hempty.
  { rewrite E. destruct (filter (kept s) page) as [|row l] eqn:F; [done|]. exfalso.
    assert (row ∈ filter (kept s) page) as Hin by (rewrite F; left). apply elem_of_list_filter in Hin as [Hk Hin]. by apply (Hskip row). }
  unfold text_import_with, import_with. rewrite Hfind. cbn [mbind option_bind].
  set (n := Z.of_nat (length recs)) in *.
  replace ((0 <? n) && (header_row <? n)) with true by (symmetry; apply andb_true_iff; rewrite !Z.ltb_lt; lia).
  destruct (Hoff (Z.to_nat header_row)) as (off0 & Ho0 & Hp0); [lia|]. rewrite Ho0. cbn [mbind option_bind].
  destruct (lookup_lt_is_Some_2 recs (Z.to_nat header_row)) as [header Hhd]; [lia|].
  rewrite Hp0. cbn [fst]. rewrite (drop_S _ header) by done. cbn [head mbind option_bind].
  destruct (field_names hn digits hdr header) as [fields|] eqn:Hfields; cbn [mbind option_bind]; [|done].
  unfold import_columns. set (imp := default fields columns). case_decide as Himp; [|done].
  destruct (dedup_headers imp) as [names|]; cbn [mbind option_bind fst snd]; [|done].
  set (imports := filter (λ p : nat * string, p.2 ∈ imp) (zip (seq 0 (length fields)) fields)).
  assert (imports.*1 ≠ []) as HI.
  { assert (∃ c, c ∈ imp ∧ c ∈ fields) as (c & Hc1 & Hc2).
    { assert (imp ≠ []) as Himp0.
      { unfold imp. destruct columns as [cs|]; [intros E0; apply Hcolumns; f_equal; exact E0|]. change (default fields None) with fields.
        specialize (Hheader header Hhd). unfold field_names in Hfields. destruct hdr.
        - destruct (dedup_headers_spec (map hn header)) as (ns & Hns & _ & Hl & _). rewrite Hfields in Hns. injection Hns as <-.
          rewrite map_length in Hl. intros E0. rewrite E0 in Hl. destruct header; [done|cbn in Hl; lia].
        - injection Hfields as <-. by destruct header. }
      destruct imp as [|c imp']; [done|]. exists c. split; [left|]. by inversion Himp. }
    apply elem_of_list_lookup in Hc2 as [ix Hix]. intros E0. apply fmap_nil_inv in E0.
    assert ((ix, c) ∈ imports) as Hin; [|rewrite E0 in Hin; by apply elem_of_nil in Hin].
    unfold imports. apply elem_of_list_filter. split; [done|]. apply elem_of_list_lookup_2 with ix.
    apply lookup_zip_with_Some. exists ix, c. split; [done|]. split; [|done].
    apply lookup_seq. split; [lia|]. by eapply lookup_lt_Some. }
  rewrite (mapM_fails _ _ t); [done|exact Ht|].
  destruct (import_tasks_spec n start limit hdr header_row ps Hps ltac:(lia) Hstart Hhr) as [_ Hts2].
  pose proof (proj1 (list.Forall_forall _ _) Hts2 t Ht) as Ht2. cbn beta in Ht2.
  assert (0 <= default 0 start) as Hs0 by (destruct start as [x|]; cbn; [by apply Hstart|lia]).
  destruct (Hoff (Z.to_nat t.1)) as (off & -> & Hp); [destruct hdr; lia|]. cbn [mbind option_bind]. rewrite Hp.
  by apply guess_task_empty.
Qed.
