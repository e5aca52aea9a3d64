(** Columns of truth values, compact dates and words. *)
From Coq Require Import String ZifyBool.
From Verif.Spec Require Import GuessedPage Counts.
From Verif.Proof Require Import NpyProofs RankProofs InferProofs GuessProofs GuessKinds GuessNumbers.
Local Open Scope Z_scope.

Lemma lower_spec c : toLower c = lower c.
Proof. unfold toLower, lower. case_decide; case_match; lia. Qed.

Lemma map_lower s : map toLower s = map lower s.
Proof. apply list_fmap_ext. intros _ c _. apply lower_spec. Qed.

Section Words.
  Context (fa : float_arith) (checks : bool).
  Notation R := (read fa checks).

  Lemma bool_cell b s : bool_text b s → cell_of fa checks DT_BOOL (Some s) (CBool b).
  Proof.
    intros H. exists s. split; [done|]. unfold bool_text in H. rewrite <- map_lower in H. split.
    - cbn [read]. unfold inferBool. rewrite H. by destruct b.
    - apply upto_cases. repeat constructor. cbn [read]. unfold inferNone. rewrite bool_decide_false; [done|].
      intros Hin. repeat (apply elem_of_cons in Hin as [->|Hin]; [by destruct b|]). by apply elem_of_nil in Hin.
  Qed.

  Lemma compact_cell sep d s : date_text Compact sep d s → valid_ymd d → cell_of fa checks DT_DATE_SHORT (Some s) (CDate d).
  Proof.
    intros Ht Hv. exists s. split; [done|].
    pose proof Ht as (y & m & n & [[Hy0 [Hy _]] Ly] & Hm & Hn & Lm & Ln & E).
    assert (zlen s <= 10) as Hl.
    { rewrite E, !app_length, Ly, Lm, Ln. done. }
    split.
    - cbn [read].
      assert (∃ sep', date_text Compact sep' d s ∧ date_separator sep') as (sep' & Ht' & Hs').
      { exists 45. split; [exact Ht|]. right; right; left. done. }
      pose proof (infer_date checks Compact sep' d s Ht' Hl Hs' Hv) as Hi.
      cbn [compact month_first] in Hi. rewrite Hi; [done|]. intros [[|] _]; done.
    - destruct y as [|c y]; [done|]. apply list.Forall_cons in Hy as [Hc _].
      destruct (digit_not_word fa checks c (y ++ m ++ n) Hc) as [H1 H2]. rewrite E.
      apply upto_cases. repeat constructor; done.
  Qed.

  (** ** Words *)
  Lemma letter_not_digit c : letter c → isDigit c = false.
  Proof. intros H. unfold letter in H. apply isDigit_false. unfold digit. lia. Qed.

  Lemma letter_parse c r : letter c → parseInt (c :: r) = Err ValueError.
  Proof.
    intros H. pose proof (letter_not_digit c H) as Hd. unfold letter in H. unfold parseInt.
    rewrite !(proj2 (Z.eqb_neq c _)) by lia. unfold parse_uint. by rewrite Hd.
  Qed.

  Lemma letter_time_comp c r : letter c → time_comp (c :: r) = Err ValueError.
  Proof. intros H. destruct r as [|b r]; [done|]. cbn [time_comp]. by rewrite letter_parse. Qed.

  Lemma word_time c r : letter c → inferTime (c :: r) = Err ValueError.
  Proof.
    intros H. unfold inferTime. case_match; [done|].
    assert (∀ r, parse_hh_mm_ss_ff (c :: r) = Err ValueError) as Hp.
    { intros r'. unfold parse_hh_mm_ss_ff. cbn [time_comps]. by rewrite letter_time_comp. }
    case_bool_decide.
    - unfold infer_compact_time. case_match; [|done]. cbn [take]. by rewrite letter_parse.
    - unfold split_zone. cbn [split_at]. unfold letter in H.
      rewrite (proj2 (Z.eqb_neq c 45)), (proj2 (Z.eqb_neq c 43)) by lia.
      destruct (split_at 45 r) as [[a b]|], (split_at 43 r) as [[a' b']|]; cbn [res_bind mbind option_bind]; try done; by rewrite Hp.
  Qed.

  Lemma word_date short am c r : letter c → inferDate checks short am (c :: r) = Err ValueError.
  Proof.
    intros H. unfold inferDate. case_match; [done|]. unfold parseDateWords. case_match; [done|].
    cbn [take has_tokens]. rewrite letter_not_digit by done. unfold letter in H. unfold accepted_token.
    rewrite !(proj2 (Z.eqb_neq c 32)), !(proj2 (Z.eqb_neq c 46)), !(proj2 (Z.eqb_neq c 45)), !(proj2 (Z.eqb_neq c 47)) by lia.
    cbn [orb]. by rewrite andb_false_r.
  Qed.

  Lemma word_datetime am c r : letter c → inferDatetime checks am (c :: r) = Err ValueError.
  Proof.
    intros H. unfold inferDatetime. case_match; [done|]. unfold parseDateWords.
    case_match; [done|]. cbn [take].
    assert (∀ e, has_tokens true (c :: take 4 r) = Err e → e = ValueError) as He.
    { assert (∀ s e, has_tokens true s = Err e → e = ValueError) as Hall.
      { induction s as [|x s IH]; intros e He; [done|]. cbn [has_tokens] in He.
        destruct (isDigit x); [by apply IH|]. destruct (accepted_token x); [done|].
        destruct (_ && _); [by apply IH|]. congruence. }
      apply Hall. }
    destruct (has_tokens true (c :: take 4 r)) as [[]|e]; cbn [res_bind].
    - cbn [starts_with_digit]. by rewrite letter_not_digit.
    - destruct ((zlen (c :: r) <? 8) || false) eqn:E; [done|]. cbn [res_bind].
      destruct (drop 8 (c :: r)) as [|t tl]; [done|].
      destruct (isDigit t || (t =? 32) || (t =? 84)); [|done].
      unfold wordsToDate, guessDate.
      assert (zlen (c :: take 3 r) =? 4 = true) as Hl4.
      { cbn [length] in *. rewrite take_length. lia. }
      rewrite Hl4. by rewrite letter_parse.
    - by rewrite (He e).
  Qed.

  Lemma word_no_blanks c r : letter c → no_blanks (c :: r) = c :: no_blanks r.
  Proof. intros H. unfold letter in H. unfold no_blanks. rewrite list.filter_cons_True; [done|]. lia. Qed.

  Lemma word_int simple am c r : letter c → inferInt checks simple am (c :: r) = Err ValueError.
  Proof.
    intros H. unfold inferInt. rewrite word_no_blanks by done. rewrite letter_parse by done.
    rewrite letter_not_digit by done. unfold letter in H. rewrite !(proj2 (Z.eqb_neq c _)) by lia. by destruct simple.
  Qed.

  Lemma word_float simple am c r : letter c →
    map lower (without_blanks (c :: r)) ≠ [110; 97; 110] → map lower (without_blanks (c :: r)) ≠ [105; 110; 102] →
    inferFloat fa checks simple am (c :: r) = Err ValueError.
  Proof.
    intros H. rewrite <- no_blanks_spec, word_no_blanks, <- map_lower by done. intros H1 H2.
    unfold inferFloat. rewrite word_no_blanks by done. pose proof (letter_not_digit c H) as Hd.
    assert (parseFloat_ok (c :: no_blanks r) = false) as ->.
    { unfold parseFloat_ok. unfold letter in H. rewrite !(proj2 (Z.eqb_neq c _)) by lia. cbn [orb].
      rewrite !bool_decide_false by done. cbn [orb float_digits]. rewrite Hd. cbn [andb].
      rewrite !(proj2 (Z.eqb_neq c _)) by lia. done. }
    rewrite Hd. unfold letter in H. rewrite !(proj2 (Z.eqb_neq c _)) by lia. by destruct simple.
  Qed.

  Lemma word_types s t : plain_word s → t ≠ DT_STRING → R t s = Err ValueError.
  Proof.
    intros ((c & r & -> & Hc) & Hn & Hb & Hnan & Hinf) Ht.
    destruct t; cbn [read]; rewrite ?word_int, ?word_float, ?word_date, ?word_datetime, ?word_time by done; try done.
    - unfold inferNone. rewrite bool_decide_false; [done|]. intros Hin. unfold letter in Hc.
      repeat (apply elem_of_cons in Hin as [E|Hin]; [(injection E as -> _; lia) || (by rewrite E in Hn; apply Hn; apply (bool_decide_unpack _); vm_compute)|]).
      by apply elem_of_nil in Hin.
    - unfold inferBool. rewrite map_lower. rewrite !bool_decide_false; [done| |].
      + intros E. by apply (Hb false).
      + intros E. by apply (Hb true).
  Qed.

  Lemma import_words texts : texts ≠ [] → Forall plain_word texts →
    import_page fa checks (map Some texts) = Ok (PG_UNICODE, map CStr texts).
  Proof.
    intros Hne Hw. rewrite list.Forall_forall in Hw.
    assert (∀ s t, s ∈ texts → first_type fa checks s t → t = DT_STRING) as Hfirst.
    { intros s t Hs (pre & post & _ & Hok & _). destruct (decide (t = DT_STRING)); [done|].
      by rewrite word_types in Hok by auto. }
    destruct (collect_ok fa checks (λ t, t = DT_STRING) (map Some texts) [] newRank 1)
      as (dts & longest & r & Hcollect & Hinv & _ & HF).
    - apply newRank_inv.
    - intros f Hf u x _ Hx. apply elem_of_list_fmap in Hf as (s & -> & Hs). change (field_text (Some s)) with s in Hx.
      destruct (decide (u = DT_STRING)) as [->|]; [done|]. rewrite word_types in Hx by auto. congruence.
    - intros f t Hf Ht. apply elem_of_list_fmap in Hf as (s & -> & Hs). by eapply Hfirst.
    - intros t Ht. by apply elem_of_nil in Ht.
    - cbn [app] in Hinv.
      assert (∀ dt, dt ∈ dts → dt = DT_STRING) as Hdts.
      { intros dt [i Hi]%elem_of_list_lookup. by destruct (Forall2_lookup_r _ _ _ _ _ HF Hi) as (f & _ & H & _). }
      destruct (header_ok dts r Hinv) as (t1 & ts & r' & Hts & Hheader & _).
      { intros ->. inversion HF. by destruct texts. }
      { exists DT_NONE. intros H%Hdts. done. }
      assert (t1 = DT_STRING) as -> by (apply Hdts, Hts; left).
      rewrite (proj2 (page_kind_unicode DT_STRING ts) eq_refl) in Hheader.
      unfold import_page. rewrite Hcollect. cbn [res_bind]. rewrite Hheader. cbn [res_bind].
      assert (∀ s, s ∈ texts → runeLen s <= longest) as Hlen.
      { intros s Hs. assert (Some s ∈ map Some texts) as [i Hi]%elem_of_list_lookup by (apply elem_of_list_fmap; eauto).
        destruct (Forall2_lookup_l _ _ _ _ _ HF Hi) as (dt & _ & -> & _ & H). by apply H. }
      assert (dumpPageBody fa checks PG_UNICODE longest r' (map Some texts) = Ok (map CStr texts)) as ->; [|done].
      clear -Hlen. induction texts as [|s texts IH]; [done|]. cbn [map dumpPageBody dump_field].
      change (field_text (Some s)) with s. unfold padded_text.
      rewrite (proj2 (Z.ltb_ge _ _)) by (apply Hlen; left). cbn [res_bind].
      rewrite IH; [done|]. intros u Hu. apply Hlen. by right.
  Qed.
End Words.

(** ** All kinds *)
Lemma moment_unique d us d1 us1 d2 us2 : moment d us d1 us1 → moment d us d2 us2 → d1 = d2 ∧ us1 = us2.
Proof.
  intros (Hv1 & Hu1 & E1) (Hv2 & Hu2 & E2). unfold us_per_day in *.
  assert (epoch_days d1 = epoch_days d2 ∧ us1 = us2) as [E ->] by lia. split; [|done].
  rewrite <- (date_of_epoch d1), <- (date_of_epoch d2) by done. by rewrite E.
Qed.

Section Columns.
  Context (fa : float_arith) (checks : bool).

  Lemma import_gaps ck T (value : list Z → cell → Prop) col cells :
    is_num T = false ∨ (∃ f, f ∈ col ∧ blank f) → T ≠ DT_STRING → T ≠ DT_NONE → col ≠ [] →
    (∀ s c, value s c → cell_of fa ck T (Some s) c) → with_gaps value col cells →
    import_page fa ck col = Ok (PG_OBJECT, cells).
  Proof.
    intros H1 H2 H3 H4 Hv Hg. apply (import_kind fa ck T); try done.
    eapply Forall2_impl; [exact Hg|]. intros f c [H|(s & -> & H)]; [by left|right]. by apply Hv.
  Qed.

  Lemma import_dates col cells : col ≠ [] →
    with_gaps (λ s c, ∃ style sep d, date_text style sep d s ∧ zlen s <= 10 ∧ iso_or_day_first style sep ∧
                        valid_ymd d ∧ ¬ late_december style d ∧ c = CDate d) col cells →
    import_page fa checks col = Ok (PG_OBJECT, cells).
  Proof.
    intros Hne. apply (import_gaps checks DT_DATE); [by left|done..|].
    intros s c (style & sep & d & H1 & H2 & H3 & H4 & H5 & ->). by eapply date_cell.
  Qed.

  Lemma import_compact col cells : col ≠ [] →
    with_gaps (λ s c, ∃ sep d, date_text Compact sep d s ∧ valid_ymd d ∧ c = CDate d) col cells →
    import_page fa checks col = Ok (PG_OBJECT, cells).
  Proof.
    intros Hne. apply (import_gaps checks DT_DATE_SHORT); [by left|done..|].
    intros s c (sep & d & H1 & H2 & ->). by eapply compact_cell.
  Qed.

  Lemma import_moments col cells : col ≠ [] →
    with_gaps (λ s c, ∃ style sep d us d' us', datetime_text style sep d us s ∧ iso_or_day_first style sep ∧
                        valid_ymd d ∧ ¬ late_december style d ∧ moment d us d' us' ∧ c = CDateTime d' us') col cells →
    import_page fa checks col = Ok (PG_OBJECT, cells).
  Proof.
    intros Hne. apply (import_gaps checks DT_DATETIME); [by left|done..|].
    intros s c (style & sep & d & us & d' & us' & H1 & H2 & H3 & H4 & H5 & ->).
    destruct (datetime_cell fa checks style sep d us s H1 H2 H3 H4) as (d2 & us2 & H6 & H7).
    destruct (moment_unique d us d' us' d2 us2 H5 H6) as [-> ->]. done.
  Qed.

  Lemma import_times col cells : col ≠ [] →
    with_gaps (λ s c, ∃ us t off z, clock us t ∧ zone off z ∧ s = t ++ z ∧ c = CTime (us - off)) col cells →
    import_page fa checks col = Ok (PG_OBJECT, cells).
  Proof.
    intros Hne. apply (import_gaps checks DT_TIME); [by left|done..|].
    intros s c (us & t & off & z & H1 & H2 & -> & ->). by eapply time_cell.
  Qed.

  Lemma import_bools col cells : col ≠ [] →
    with_gaps (λ s c, ∃ b, bool_text b s ∧ c = CBool b) col cells →
    import_page fa checks col = Ok (PG_OBJECT, cells).
  Proof.
    intros Hne. apply (import_gaps checks DT_BOOL); [by left|done..|].
    intros s c (b & H1 & ->). by apply bool_cell.
  Qed.

  Lemma import_ints_gaps col cells : (∃ f, f ∈ col ∧ blank f) →
    with_gaps (λ s c, int_value s c ∧ not_compact s) col cells →
    import_page fa false col = Ok (PG_OBJECT, cells).
  Proof.
    intros Hb. apply (import_gaps false DT_INT_SIMPLE); [by right|done..| |].
    - intros ->. destruct Hb as (f & Hf & _). by apply elem_of_nil in Hf.
    - intros s c [(n & H1 & H2 & ->) H3]. by apply int_cell.
  Qed.

  Lemma import_decimals_gaps col cells : (∃ f, f ∈ col ∧ blank f) →
    with_gaps (λ s c, plain_decimal s ∧ c = CFloat (f_parse fa s)) col cells →
    import_page fa false col = Ok (PG_OBJECT, cells).
  Proof.
    intros Hb. apply (import_gaps false DT_FLOAT_SIMPLE); [by right|done..| |].
    - intros ->. destruct Hb as (f & Hf & _). by apply elem_of_nil in Hf.
    - intros s c [H1 ->]. by apply decimal_cell.
  Qed.
End Columns.
