(** C98: the lines shown of a sheet. *)
From Verif.Proof Require Import NamesProofs SliceLemmas DictLemmas SmallProofs JsonTableProofs SheetPack SheetProofs SheetFinal SheetOds.
From Verif.Model Require Import SheetHeaders.
Local Open Scope list_scope.
Local Open Scope Z_scope.

Local Notation map_res := JsonTable.map_res.

Lemma iter_rows_take {A} (rows : list A) m : iter_rows rows 1 m = take (Z.to_nat m) rows.
Proof.
  unfold iter_rows, py_range, range_count.
  assert ((0 <? 1) = true) as -> by reflexivity. rewrite Z.div_1_r. replace (m + 1 - 1 + 1 - 1) with m by lia.
  transitivity (omap (λ i, znth rows i) (seqZ 0 m)).
  - unfold seqZ. generalize (seq 0 (Z.to_nat m)). intros l. induction l as [|k l IH]; [done|].
    cbn [map fmap list_fmap]. rewrite !omap_cons. rewrite <- IH.
    by replace (1 + 1 * (Z.of_nat k + 0) - 1) with (Z.of_nat k + 0) by lia.
  - by rewrite omap_range_slice.
Qed.

Section Headers.
  Context {O : Type} (iso : O → list Z) (other : option shown).
  Local Notation cell_json := (cell_json iso other).
  Local Notation shows := (shows iso other).

  Lemma cell_json_spec v s : cell_json v = Ok s ↔ shows v s.
  Proof.
    destruct v as [|[]| | | | |]; cbn; try (split; [by intros [= <-]|by intros ->]).
    destruct other; split; intros [= <-]; done.
  Qed.
  Lemma cell_json_err v e : cell_json v = Err e → e = TypeError.
  Proof. destruct v as [|[]| | | | |]; cbn; try done. destruct other; [done|]. by intros [= <-]. Qed.
  Lemma row_json_spec row line : map_res cell_json row = Ok line ↔ Forall2 shows row line.
  Proof.
    rewrite map_res_Forall2. split; intros H; (eapply Forall2_impl; [exact H|]); intros v s; by rewrite cell_json_spec.
  Qed.
  Lemma map_res_err {A B} (f : A → res B) (x : exn) l e : (∀ a e, f a = Err e → e = x) → map_res f l = Err e → e = x.
  Proof.
    intros Hf. induction l as [|a l IH]; cbn [map_res]; [done|]. destruct (f a) as [b|e'] eqn:E; cbn.
    - destruct (map_res f l); cbn; [done|]. intros [= <-]. by apply IH.
    - intros [= <-]. by eapply Hf.
  Qed.

  Lemma cleaned_none (v : xcell O) : cleaned v = XNone ↔ v = XNone.
  Proof. by destruct v. Qed.

  (** the padding after one more row *)
  Lemma padding_spec (cells : list (xcell O)) : ∀ w j p, w - j = zlen cells → 0 <= p →
    let q := padding_loop (rev cells) w j p in
    p <= q ∧ (∀ i v, cells !! i = Some v → v ≠ XNone → Z.of_nat i < q) ∧
    (q = p ∨ 1 <= q ∧ ∃ v, cells !! Z.to_nat (q - 1) = Some v ∧ v ≠ XNone).
  Proof.
    induction cells as [|x cells IH] using rev_ind; intros w j p Hw Hp; cbv zeta.
    - cbn. split; [lia|]. split; [|by left]. intros i v. by rewrite lookup_nil.
    - rewrite rev_app_distr. cbn [rev app]. rewrite app_length in Hw. cbn [length] in Hw.
      assert (x = XNone ∨ x ≠ XNone) as [->|Hx] by (destruct x; auto).
      + cbn [padding_loop]. destruct (IH w (j + 1) p ltac:(lia) Hp) as (H1 & H2 & H3). split; [done|]. split.
        * intros i v Hi Hv. apply lookup_app_Some in Hi as [Hi|[Hi1 Hi2]]; [by eapply H2|].
          destruct (i - length cells)%nat; cbn in Hi2; [|by rewrite ?lookup_nil in Hi2]. by injection Hi2 as <-.
        * destruct H3 as [H3|(H3 & v & Hv & Hn)]; [by left|]. right. split; [done|]. exists v. split; [|done].
          by apply lookup_app_l_Some.
      + assert (padding_loop (x :: rev cells) w j p = Z.max p (w - j)) as -> by by destruct x.
        split; [lia|]. split.
        * intros i v Hi _. apply lookup_lt_Some in Hi. rewrite app_length in Hi. cbn in Hi. lia.
        * destruct (decide (w - j <= p)); [left; lia|right]. split; [lia|]. exists x. split; [|done].
          rewrite lookup_app_r by lia. replace (Z.to_nat (Z.max p (w - j) - 1) - length cells)%nat with 0%nat by lia. done.
  Qed.

  (** rows before the headers *)
  Lemma header_skip rows mc container p : ∀ i, i <= 0 →
    header_loop iso other rows i mc container p = header_loop iso other (drop (Z.to_nat (- i)) rows) (Z.max i (Z.min 0 (i + zlen rows))) mc container p.
  Proof.
    induction rows as [|row rows IH]; intros i Hi.
    - rewrite drop_nil. cbn [header_loop]. done.
    - destruct (decide (i = 0)) as [->|Hne].
      { cbn [length]. change (Z.to_nat (- 0)) with 0%nat. cbn [drop]. by replace (Z.max 0 (Z.min 0 (0 + Z.of_nat (S (length rows))))) with 0 by lia. }
      cbn [header_loop]. rewrite (proj2 (Z.ltb_lt _ _)) by lia. rewrite IH by lia.
      replace (Z.to_nat (- i)) with (S (Z.to_nat (- (i + 1)))) by lia. cbn [drop length]. f_equal. lia.
  Qed.

  Lemma header_loop_spec rows mc : Forall (λ row : list (xcell O), zlen row = mc) rows → ∀ front m p i,
    i = zlen front → (length rows <= m)%nat → 0 <= p →
    match map_res (λ row, map_res cell_json (map cleaned row)) rows with
    | Err e => header_loop iso other rows i mc (map Some front ++ replicate m None) p = Err e
    | Ok lines => ∃ q, header_loop iso other rows i mc (map Some front ++ replicate m None) p
          = Ok (map Some (front ++ lines) ++ replicate (m - length rows) None, q) ∧ p <= q ∧
        (∀ row i v, row ∈ rows → row !! i = Some v → v ≠ XNone → Z.of_nat i < q) ∧
        (q = p ∨ 1 <= q ∧ ∃ row v, row ∈ rows ∧ row !! Z.to_nat (q - 1) = Some v ∧ v ≠ XNone)
    end.
  Proof.
    induction rows as [|row rows IH]; intros Hrect front m p i Hi Hm Hp.
    - cbn. exists p. rewrite app_nil_r, Nat.sub_0_r. split; [done|]. split; [lia|]. split; [|by left].
      intros row' k v Hin. by apply elem_of_nil in Hin.
    - apply list.Forall_cons in Hrect as [Hr Hrect]. cbn [map_res header_loop]. rewrite (proj2 (Z.ltb_ge _ _)) by lia.
      assert (map strip_escape row = map cleaned row) as ->.
      { apply map_ext. intros. apply strip_escape_cleaned. }
      destruct (map_res cell_json (map cleaned row)) as [line|e] eqn:El; cbn [res_bind]; [|done].
      cbn [length] in Hm. destruct m as [|m]; [lia|].
      rewrite (proj2 (Z.ltb_lt _ _)) by (rewrite app_length, map_length, replicate_length; lia).
      set (p' := padding_loop _ _ _ _).
      destruct (padding_spec (map cleaned row) mc 0 p ltac:(rewrite map_length; lia) Hp) as (P1 & P2 & P3). fold p' in P1, P2, P3.
      replace (<[Z.to_nat i := Some line]> (map Some front ++ replicate (S m) None)) with (map Some (front ++ [line]) ++ replicate m None).
      2: { rewrite insert_app_r_alt by (rewrite map_length; lia). rewrite map_length.
           replace (Z.to_nat i - length front)%nat with 0%nat by lia. cbn. by rewrite map_app, <- app_assoc. }
      specialize (IH Hrect (front ++ [line]) m p' (i + 1) ltac:(rewrite app_length; cbn; lia) ltac:(lia) ltac:(lia)).
      destruct (map_res _ rows) as [lines|e]; cbn [res_bind res_map]; [|exact IH].
      destruct IH as (q & -> & Q1 & Q2 & Q3). exists q. rewrite <- app_assoc. split; [done|]. split; [lia|].
      assert (∀ j v, row !! j = Some v → v ≠ XNone → Z.of_nat j < p') as P2'.
      { intros j v Hj Hv. apply (P2 j (cleaned v)); [by rewrite <- list_lookup_fmap_Some_2 || by rewrite list_lookup_fmap, Hj|by rewrite cleaned_none]. }
      split.
      + intros row' j v Hin Hj Hv. apply elem_of_cons in Hin as [->|Hin]; [specialize (P2' j v Hj Hv); lia|by eapply Q2].
      + destruct Q3 as [->|(Hq & row' & v & Hin & Hj & Hv)].
        * destruct P3 as [P3|(Hq & v & Hj & Hv)]; [by left|]. right. split; [done|].
          rewrite list_lookup_fmap in Hj. destruct (row !! Z.to_nat (p' - 1)) as [v'|] eqn:E; [|done]. injection Hj as <-.
          exists row, v'. split; [by left|]. split; [done|]. by rewrite <- cleaned_none.
        * right. split; [done|]. exists row', v. split; [by right|done].
  Qed.

  Lemma map_res_Forall2_lines rows lines :
    map_res (λ row, map_res cell_json (map cleaned row)) rows = Ok lines ↔ Forall2 (λ row line, Forall2 shows (map cleaned row) line) rows lines.
  Proof.
    rewrite map_res_Forall2. split; intros H; (eapply Forall2_impl; [exact H|]); intros v s; by rewrite row_json_spec.
  Qed.
  Lemma shows_cleaned (v : xcell O) s : shows v s → ∃ s', shows (cleaned v) s'.
  Proof. destruct v; cbn; intros H; eexists; first [done|exact H]. Qed.

  Lemma excel_lines_spec (rows : list (list (xcell O))) w hri linecount :
    Forall (λ row, length row = w) rows → 0 <= hri → 0 <= linecount →
    let n := Z.to_nat (Z.min (zlen rows) (linecount + 1)) in
    let visible := take n (drop (Z.to_nat hri) rows) in
    let result := excel_lines iso other rows (Some (zlen rows, Z.of_nat w)) hri linecount in
    (∃ k lines, used_width visible k ∧ Forall2 (λ row line, Forall2 shows (map cleaned (take k row)) line) visible lines ∧
      result = Ok (map Some lines ++ replicate (n - length visible) None)) ∨
    (result = Err TypeError ∧ ¬ Forall (Forall (λ v, ∃ s, shows v s)) visible).
  Proof.
    intros Hrect Hh Hl n visible result.
    assert (result = res_map (λ p, map (λ c, match c with Some line => Some (take (Z.to_nat p.2) line) | None => None end) p.1)
      (header_loop iso other visible 0 (Z.of_nat w) (map Some [] ++ replicate n None) 0)) as Er.
    { unfold result, excel_lines. cbv zeta. cbn [fmap option_fmap option_map fst]. f_equal. cbn [map app].
      fold n. rewrite header_skip by lia. rewrite Z.opp_involutive.
      assert (first_rows rows (Some (zlen rows)) (Some (hri + Z.min (zlen rows) (linecount + 1)))
        = take (Z.to_nat hri + n) rows) as Ef.
      { unfold first_rows. destruct (hri + Z.min (zlen rows) (linecount + 1)) eqn:Em.
        - rewrite iter_rows_take. rewrite !take_ge by lia. done.
        - rewrite iter_rows_take. f_equal. unfold n. lia.
        - lia. }
      rewrite Ef. assert (drop (Z.to_nat hri) (take (Z.to_nat hri + n) rows) = visible) as ->.
      { unfold visible. by rewrite skipn_firstn_comm, Nat.add_comm, Nat.add_sub. }
      destruct visible as [|r v] eqn:Ev; [done|].
      assert (length (drop (Z.to_nat hri) rows) ≠ 0%nat) as Hne.
      { intros E0. apply length_zero_iff_nil in E0. unfold visible in Ev. by rewrite E0, take_nil in Ev. }
      rewrite drop_length in Hne. f_equal. rewrite take_length. unfold n. lia. }
    assert (Forall (λ row : list (xcell O), zlen row = Z.of_nat w) visible) as Hv.
    { unfold visible. apply Forall_take, Forall_drop. eapply list.Forall_impl; [exact Hrect|]. cbn. lia. }
    pose proof (header_loop_spec visible (Z.of_nat w) Hv [] n 0 0 eq_refl ltac:(unfold visible; rewrite take_length; lia) ltac:(lia)) as Hs.
    destruct (map_res _ visible) as [lines|e] eqn:Em.
    - left. destruct Hs as (q & Hq & Q1 & Q2 & Q3). rewrite Hq in Er. cbn [res_map fst snd app] in Er.
      apply map_res_Forall2_lines in Em. exists (Z.to_nat q), (map (take (Z.to_nat q)) lines). split; [|split].
      + split.
        * intros row i v Hin Hi Hn. specialize (Q2 row i v Hin Hi Hn). lia.
        * intros Hk. destruct Q3 as [->|(_ & row & v & Hin & Hi & Hn)]; [done|]. exists row, v. split; [done|]. split; [|done].
          by replace (pred (Z.to_nat q)) with (Z.to_nat (q - 1)) by lia.
      + apply Forall2_fmap_r. eapply Forall2_impl; [exact Em|]. cbn. intros row line Hrl.
        rewrite <- firstn_map. by apply Forall2_take.
      + rewrite Er. f_equal. rewrite map_app, !map_map. f_equal. rewrite fmap_replicate || idtac. 
        generalize (n - length visible)%nat. intros m. induction m as [|m IH]; [done|]. cbn. by f_equal.
    - right. rewrite Hs in Er. cbn [res_map] in Er.
      assert (e = TypeError) as ->.
      { eapply map_res_err; [|exact Em]. cbn. intros row e' Hrow. eapply map_res_err; [|exact Hrow]. apply cell_json_err. }
      split; [done|]. intros HF.
      assert (∃ r, map_res (λ row, map_res cell_json (map cleaned row)) visible = Ok r) as [r Hr]; [|by rewrite Hr in Em].
      apply map_res_ok. eapply list.Forall_impl; [exact HF|]. cbn. intros row Hrow. apply map_res_ok.
      rewrite list.Forall_forall in Hrow. apply list.Forall_forall. intros v Hin. apply elem_of_list_fmap in Hin as (v' & -> & Hin).
      destruct (Hrow v' Hin) as [s Hs']. destruct (shows_cleaned v' s Hs') as [s' Hs'']. exists s'. by apply cell_json_spec.
  Qed.

  Lemma unsized_rows (row : list (xcell O)) rows linecount : Forall (λ v, ∃ s, shows v s) row →
    excel_lines iso other (row :: rows) None 0 linecount = Err IndexError.
  Proof.
    intros Hrow.
    change (res_map (λ p, map (λ c, match c with Some line => Some (take (Z.to_nat p.2) line) | None => None end) p.1)
      (res_bind (map_res cell_json (map strip_escape row)) (λ _, Err IndexError)) = Err IndexError :> res (list (option (list shown)))).
    assert (∃ r, map_res cell_json (map strip_escape row) = Ok r) as [r ->]; [|done].
    apply map_res_ok. rewrite list.Forall_forall in Hrow. apply list.Forall_forall. intros v Hin.
    apply elem_of_list_fmap in Hin as (v' & -> & Hin). rewrite strip_escape_cleaned.
    destruct (Hrow v' Hin) as [s Hs']. destruct (shows_cleaned v' s Hs') as [s' Hs'']. exists s'. by apply cell_json_spec.
  Qed.

  Lemma ods_lines_spec (data : list (list (xcell O))) hri linecount : 0 <= hri → 0 <= linecount →
    let visible := take (Z.to_nat linecount) (drop (Z.to_nat hri) data) in
    (∃ lines, Forall2 (Forall2 shows) visible lines ∧ ods_lines iso other data hri linecount = Ok lines) ∨
    (ods_lines iso other data hri linecount = Err TypeError ∧ ¬ Forall (Forall (λ v, ∃ s, shows v s)) visible).
  Proof.
    intros Hh Hl visible.
    assert (ods_lines iso other data hri linecount = map_res (map_res cell_json) visible) as ->.
    { unfold ods_lines. rewrite getslice_between by lia. f_equal. unfold visible.
      rewrite skipn_firstn_comm. f_equal. lia. }
    destruct (map_res _ visible) as [lines|e] eqn:Em.
    - left. exists lines. split; [|done]. apply map_res_Forall2 in Em. eapply Forall2_impl; [exact Em|].
      intros row line. by rewrite row_json_spec.
    - right. split.
      + f_equal. eapply map_res_err; [|exact Em]. cbn. intros row e' Hrow. eapply map_res_err; [|exact Hrow]. apply cell_json_err.
      + intros HF. assert (∃ r, map_res (map_res cell_json) visible = Ok r) as [r Hr]; [|by rewrite Hr in Em].
        apply map_res_ok. eapply list.Forall_impl; [exact HF|]. cbn. intros row Hrow. apply map_res_ok.
        eapply list.Forall_impl; [exact Hrow|]. cbn. intros v [s Hs]. exists s. by apply cell_json_spec.
  Qed.
End Headers.

Section Import.
  Context {O T : Type} `{EqDecision O, EqDecision T} (ty : xcell O → T) (ps : Z) (Hps : 0 < ps).
  Context (str : xcell O → string) (text : list Z → string) (Htext : ∀ s, str (XStr s) = text s).
  Context (iso : O → list Z) (other : option shown).
  Local Notation shows := (shows iso other).

  Lemma shown_name v s : text_header v → shows v s → header_name text s = Some (header_text str v).
  Proof using Htext. destruct v; cbn; try done; intros _ ->; cbn; [done|]. by rewrite Htext. Qed.
  Lemma shown_names header line : Forall text_header header → Forall2 shows header line →
    mapM (header_name text) line = Some (map (header_text str) header).
  Proof using Htext.
    intros Hh H. apply mapM_Some. induction H as [|v s header line Hs H IH]; [constructor|].
    apply list.Forall_cons in Hh as [Hv Hh]. cbn. constructor; [by apply shown_name|by apply IH].
  Qed.
  Lemma blank_names header : Forall (λ v : xcell O, v = XNone) header → map (header_text str) header = replicate (length header) ""%string.
  Proof using. induction 1 as [|v header -> H IH]; [done|]. cbn. by f_equal. Qed.

  Lemma excel_names dumps loads (rows : list (list (xcell O))) w max_row hri s start limit header linecount line rest (t : table string (xcell O) T) :
    (∀ o, loads (dumps o) = o) →
    Forall (λ row, length row = w) rows → max_row = None ∨ max_row = Some (zlen rows) →
    Forall (Forall (λ v, ∀ f, v = XFloat f → 0 <= f < 2 ^ 64)) rows →
    0 <= hri → rows !! Z.to_nat hri = Some header → Forall text_header header → 0 <= start → 0 < limit → 0 <= linecount →
    excel_reader ty ps str dumps loads rows max_row true hri None s start limit = Ok t →
    excel_lines iso other rows (Some (zlen rows, Z.of_nat w)) hri linecount = Ok (line :: rest) →
    ∃ cells names, line = Some cells ∧ mapM (header_name text) cells = Some names ∧
      dedup_headers (names ++ replicate (w - length names) ""%string) = Some (contents t).*1.
  Proof using Hps Htext.
    intros Hloads Hrect Hmr Hfl Hhri Hh Hth Hs Hl Hlc Ht Hlines.
    assert (length header = w) as Hw.
    { rewrite list.Forall_forall in Hrect. apply Hrect. by eapply elem_of_list_lookup_2. }
    destruct (excel_result ty ps str dumps loads Hps Hloads rows w max_row true hri None s start limit header Hrect Hmr Hhri Hh Hs Hl I)
      as (d & _ & Hdd & Hfw & Hbw).
    specialize (Hbw t Ht Hfl). destruct (Hfw Hbw) as (t' & Ht' & Hc). rewrite Ht in Ht'. injection Ht' as <-.
    specialize (Hdd eq_refl). cbv beta iota in Hdd.
    assert ((contents t).*1 = d.*1) as ->.
    { rewrite Hc. rewrite <- list_fmap_compose. apply list_fmap_ext. done. }
    destruct (excel_lines_spec iso other rows w hri linecount Hrect Hhri Hlc) as [(k & lines & Hk & HF & He)|[He _]]; [|by rewrite He in Hlines].
    cbv zeta in *. rewrite He in Hlines. injection Hlines as Hlines.
    assert (Hlt := lookup_lt_Some _ _ _ Hh).
    rewrite (drop_S _ _ _ Hh) in HF, Hk.
    destruct (Z.to_nat (Z.min (zlen rows) (linecount + 1))) as [|n] eqn:En; [lia|]. cbn [take] in HF, Hk.
    apply Forall2_cons_inv_l in HF as (l1 & ls & Hl1 & _ & ->). cbn [map app] in Hlines. injection Hlines as <- _.
    exists l1, (map (header_text str) (map cleaned (take k header))). split; [done|].
    assert (Forall text_header (map cleaned (take k header))) as Hth'.
    { apply Forall_fmap. apply Forall_take. eapply list.Forall_impl; [exact Hth|]. intros v. by destruct v. }
    split; [by apply shown_names|].
    rewrite <- Hdd. f_equal.
    transitivity (map (header_text str) (map cleaned (take k header)) ++ map (header_text str) (map cleaned (drop k header))).
    - f_equal. rewrite (blank_names (map cleaned (drop k header))).
      + f_equal. rewrite !map_length, drop_length, take_length. lia.
      + apply Forall_fmap. apply list.Forall_forall. intros v Hv. cbn. apply cleaned_none.
        apply elem_of_list_lookup in Hv as [j Hj]. rewrite lookup_drop in Hj.
        destruct v; try done; (destruct Hk as [Hk _]; eapply (Hk header) in Hj; [lia|by left|done]).
    - rewrite <- !map_app, take_drop, map_map. done.
  Qed.

  (** the header row of pyexcel and that of pandas *)
  Lemma ods_names (data : list (list (xcell O))) w hri s start limit header (pdata : list (list (xcell O))) m pheader linecount :
    Forall (λ row, length row = w) data → 0 <= hri → data !! Z.to_nat hri = Some header → Forall text_header header →
    0 <= start → 0 < limit → 0 < linecount →
    pdata !! Z.to_nat hri = Some pheader →
    Forall2 (λ p q, p = q ∨ p = XStr [] ∧ q = XNone) pheader (take m header) → Forall (λ v, v = XNone) (drop m header) → text [] = ""%string →
    ∀ lines, ods_lines iso other pdata hri linecount = Ok lines →
    ∃ (t : table string (xcell O) T) cells rest names, ods_reader ty ps str data true hri None s start limit = Ok t ∧ lines = cells :: rest ∧
      mapM (header_name text) cells = Some names ∧
      dedup_headers (names ++ replicate (w - length names) ""%string) = Some (contents t).*1.
  Proof using Hps Htext EqDecision0.
    intros Hrect Hhri Hh Hth Hs Hl Hlc Hph Hm Hblank Hemp lines Hlines.
    assert (length header = w) as Hw.
    { rewrite list.Forall_forall in Hrect. apply Hrect. by eapply elem_of_list_lookup_2. }
    destruct (ods_result ty ps str Hps data w true hri None s start limit header Hrect Hhri Hh Hs Hl (or_introl eq_refl))
      as (t & d & Ht & _ & Hdd & Hc). specialize (Hdd eq_refl). cbv beta iota in Hdd.
    destruct (ods_lines_spec iso other pdata hri linecount Hhri ltac:(lia)) as [(lines' & HF & He)|[He _]]; [|by rewrite He in Hlines].
    rewrite He in Hlines. injection Hlines as <-. rewrite (drop_S _ _ _ Hph) in HF.
    destruct (Z.to_nat linecount) as [|n] eqn:En; [lia|]. cbn [take] in HF.
    apply Forall2_cons_inv_l in HF as (l1 & ls & Hl1 & _ & ->).
    exists t, l1, ls, (map (header_text str) (take m header)). split; [done|]. split; [done|].
    assert (Forall text_header pheader ∧ map (header_text str) pheader = map (header_text str) (take m header)) as [Hp1 Hp2].
    { apply (Forall_take _ m) in Hth. clear - Hm Hth Htext Hemp. induction Hm as [|p q pl ql Hpq H IH]; [done|].
      apply list.Forall_cons in Hth as [Hq Hth]. destruct (IH Hth) as [I1 I2]. destruct Hpq as [->|[-> ->]].
      - split; [by constructor|]. cbn. by f_equal.
      - split; [by constructor|]. cbn. rewrite Htext, Hemp. by f_equal. }
    split; [rewrite <- Hp2; by apply shown_names|].
    assert ((contents t).*1 = d.*1) as ->.
    { rewrite Hc. rewrite <- list_fmap_compose. apply list_fmap_ext. done. }
    rewrite <- Hdd. f_equal. transitivity (map (header_text str) (take m header) ++ map (header_text str) (drop m header)).
    - f_equal. rewrite (blank_names (drop m header)) by done. f_equal. rewrite map_length, take_length, drop_length. lia.
    - by rewrite <- map_app, take_drop.
  Qed.
End Import.

Section Books.
  Context {O : Type} (iso : O → list Z) (other : option shown).
  Local Open Scope string_scope.
  Local Open Scope list_scope.

  Lemma excel_book_spec sheets hri linecount : ∀ d, NoDup sheets.*1 →
    match excel_book iso other sheets hri linecount d with
    | Ok d' =>
        (∀ name rows dims, (name, (rows, dims)) ∈ sheets → name ≠ "delimiter" →
          ∃ lines, excel_lines iso other rows dims hri linecount = Ok lines ∧ dget d' name = Some (Some lines)) ∧
        (sheets ≠ [] → dget d' "delimiter" = Some None) ∧ (sheets = [] → d' = d) ∧
        (∀ name, name ∉ sheets.*1 → name ≠ "delimiter" → dget d' name = dget d name)
    | Err e => ∃ name rows dims, (name, (rows, dims)) ∈ sheets ∧ excel_lines iso other rows dims hri linecount = Err e
    end.
  Proof.
    induction sheets as [|(name & rows & dims) sheets IH]; intros d Hnd.
    - cbn. split; [intros ??? Hin; by apply elem_of_nil in Hin|]. done.
    - cbn [fmap list_fmap fst] in Hnd. apply list.NoDup_cons in Hnd as [Hni Hnd]. cbn [excel_book].
      destruct (excel_lines iso other rows dims hri linecount) as [lines|e] eqn:El; cbn [res_bind].
      2: { exists name, rows, dims. split; [by left|done]. }
      specialize (IH (dset (dset d name (Some lines)) "delimiter" None) Hnd).
      destruct (excel_book _ _ sheets _ _ _) as [d'|e].
      2: { destruct IH as (n' & r' & d' & Hin & He). exists n', r', d'. split; [by right|done]. }
      destruct IH as (I1 & I2 & I3 & I4). split; [|split; [|split; [done|]]].
      + intros n' r' d0 Hin Hne. apply elem_of_cons in Hin as [[= -> -> ->]|Hin]; [|by apply I1].
        exists lines. split; [done|]. rewrite I4 by done. rewrite dget_dset, decide_False by done. by rewrite dget_dset, decide_True.
      + intros _. destruct (decide (sheets = [])) as [->|Hne]; [|by apply I2].
        rewrite I3 by done. by rewrite dget_dset, decide_True.
      + intros n' Hn' Hne. apply not_elem_of_cons in Hn' as [Hn1 Hn2]. rewrite I4 by done.
        rewrite dget_dset, decide_False by done. by rewrite dget_dset, decide_False.
  Qed.

  Lemma ods_book_spec sheets hri linecount : ∀ d, NoDup sheets.*1 →
    match ods_book iso other sheets hri linecount d with
    | Ok d' =>
        (∀ name data, (name, data) ∈ sheets →
          ∃ lines, ods_lines iso other data hri linecount = Ok lines ∧ dget d' name = Some (Some lines)) ∧
        (∀ name, name ∉ sheets.*1 → dget d' name = dget d name)
    | Err e => ∃ name data, (name, data) ∈ sheets ∧ ods_lines iso other data hri linecount = Err e
    end.
  Proof.
    induction sheets as [|(name & data) sheets IH]; intros d Hnd.
    - cbn. split; [intros ?? Hin; by apply elem_of_nil in Hin|]. done.
    - cbn [fmap list_fmap fst] in Hnd. apply list.NoDup_cons in Hnd as [Hni Hnd]. cbn [ods_book].
      destruct (ods_lines iso other data hri linecount) as [lines|e] eqn:El; cbn [res_bind].
      2: { exists name, data. split; [by left|done]. }
      specialize (IH (dset d name (Some lines)) Hnd).
      destruct (ods_book _ _ sheets _ _ _) as [d'|e].
      2: { destruct IH as (n' & r' & Hin & He). exists n', r'. split; [by right|done]. }
      destruct IH as (I1 & I4). split.
      + intros n' r' Hin. apply elem_of_cons in Hin as [[= -> ->]|Hin]; [|by apply I1].
        exists lines. split; [done|]. rewrite I4 by done. by rewrite dget_dset, decide_True.
      + intros n' Hn'. apply not_elem_of_cons in Hn' as [Hn1 Hn2]. rewrite I4 by done. by rewrite dget_dset, decide_False.
  Qed.

  Lemma excel_book_result sheets hri linecount : NoDup sheets.*1 →
    match excel_reader_headers iso other sheets hri linecount with
    | Ok d =>
        (∀ name rows dims, (name, (rows, dims)) ∈ sheets → name ≠ "delimiter" →
          ∃ lines, excel_lines iso other rows dims hri linecount = Ok lines ∧ dget d name = Some (Some lines)) ∧
        (sheets ≠ [] → dget d "delimiter" = Some None) ∧
        (∀ name, name ∉ sheets.*1 → name ≠ "delimiter" → dget d name = None)
    | Err e => ∃ name rows dims, (name, (rows, dims)) ∈ sheets ∧ excel_lines iso other rows dims hri linecount = Err e
    end.
  Proof.
    intros Hnd. pose proof (excel_book_spec sheets hri linecount [] Hnd) as H. unfold excel_reader_headers.
    destruct (excel_book _ _ _ _ _ _); [|done]. destruct H as (H1 & H2 & _ & H4). done.
  Qed.
  Lemma ods_book_result sheets hri linecount : NoDup sheets.*1 →
    match ods_reader_headers iso other sheets hri linecount with
    | Ok d =>
        (∀ name data, (name, data) ∈ sheets →
          ∃ lines, ods_lines iso other data hri linecount = Ok lines ∧ dget d name = Some (Some lines)) ∧
        ("delimiter" ∉ sheets.*1 → dget d "delimiter" = Some None) ∧
        (∀ name, name ∉ sheets.*1 → name ≠ "delimiter" → dget d name = None)
    | Err e => ∃ name data, (name, data) ∈ sheets ∧ ods_lines iso other data hri linecount = Err e
    end.
  Proof.
    intros Hnd. pose proof (ods_book_spec sheets hri linecount [("delimiter", None)] Hnd) as H. unfold ods_reader_headers.
    destruct (ods_book _ _ _ _ _ _) as [d|]; [|done]. destruct H as (H1 & H2). split; [done|]. split.
    - intros Hn. by rewrite H2.
    - intros n Hn Hne. rewrite H2 by done. cbn [dget]. by rewrite decide_False.
  Qed.
End Books.
