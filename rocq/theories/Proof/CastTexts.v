From Coq Require Import String ZifyBool Lqa.
From Verif.Spec Require Import Cast.
From Verif.Proof Require Import DatesProofs NpyProofs InferProofs Binary64Proofs FloatValues FloatProofs FloatFinal
  GuessNumbers GuessWords CastProofs.
Local Open Scope Z_scope.

(** * Seconds as floats *)
Section Floats.
  Context (val : Z → Q) (ca : cast_arith) (Hf : cast_floats val ca) (checks objects : bool).

  Lemma qabs_le a b : (Qabs a <= b → - b <= a ∧ a <= b)%Q.
  Proof. apply Qabs_Qle_condition. Qed.

  Lemma fraction_close f : (Qabs f <= 1 →
    Qabs (inject_Z (qtrunc (fl (f * inject_Z 1000000))) - f * inject_Z 1000000) <= 1 + (1 # 1000000000))%Q.
  Proof.
    intros Hq. pose proof (fl_err (f * inject_Z 1000000)) as E.
    pose proof (qtrunc_near (fl (f * inject_Z 1000000))) as N.
    set (y := this (fl (f * inject_Z 1000000))) in *. set (n := inject_Z (qtrunc y)) in *.
    rewrite Qabs_Qmult in E. change (Qabs (inject_Z 1000000)) with (inject_Z 1000000) in E.
    apply qabs_le in E as [E1 E2]. apply qabs_le in N as [N1 N2].
    assert (Qabs f * inject_Z 1000000 * u53 <= 1 # 1000000000)%Q as B.
    { apply (Qle_trans _ (1 * (inject_Z 1000000 * u53))); [|by vm_compute].
      rewrite <- Qmult_assoc. apply Qmult_le_compat_r; [done|]. by vm_compute. }
    apply Qabs_Qle_condition. split; lra.
  Qed.

  Lemma duration_close x :
    (Qabs (inject_Z (seconds2Duration ca x) - val x * inject_Z 1000000) <= 1 + (1 # 1000000000))%Q.
  Proof.
    unfold seconds2Duration. rewrite (cf_int _ _ Hf), (cf_fraction _ _ Hf).
    pose proof (fraction_close _ (qtrunc_near (val x))) as F.
    set (f := (val x - inject_Z (qtrunc (val x)))%Q) in *.
    rewrite inject_Z_plus, inject_Z_mult.
    assert (inject_Z (qtrunc (val x)) * inject_Z 1000000 + inject_Z (qtrunc (fl (f * inject_Z 1000000)))
            - val x * inject_Z 1000000
            == inject_Z (qtrunc (fl (f * inject_Z 1000000))) - f * inject_Z 1000000)%Q as ->; [|done].
    unfold f. ring.
  Qed.

  Lemma seconds_close t : Z.abs t <= 2 ^ 53 →
    (Qabs (val (ca_seconds ca t) * inject_Z 1000000 - inject_Z t) <= inject_Z (Z.abs t) * u53)%Q.
  Proof.
    intros Ht. rewrite (cf_seconds _ _ Hf), fl_int by done.
    rewrite (fl_proper _ (micro t)) by (unfold micro; cbn [Q2Qc this]; by rewrite (Qred_correct (inject_Z t))).
    pose proof (fl_err (micro t)) as E. set (y := this (fl (micro t))) in *.
    assert (inject_Z t == micro t * inject_Z 1000000)%Q as T by (unfold micro, Qeq; cbn; lia).
    assert (inject_Z (Z.abs t) == Qabs (micro t) * inject_Z 1000000)%Q as A by (unfold micro, Qeq; cbn; lia).
    rewrite A, T. setoid_replace (y * inject_Z 1000000 - micro t * inject_Z 1000000)%Q
      with ((y - micro t) * inject_Z 1000000)%Q by ring.
    rewrite Qabs_Qmult. change (Qabs (inject_Z 1000000)) with (inject_Z 1000000).
    apply (Qle_trans _ (Qabs (micro t) * u53 * inject_Z 1000000)); [|apply Qle_lteq; right; ring].
    apply Qmult_le_compat_r; [done|]. by vm_compute.
  Qed.

  Lemma trip_close t : Z.abs t <= 2 ^ 52 → Z.abs (seconds2Duration ca (ca_seconds ca t) - t) <= 1.
  Proof.
    intros Ht. pose proof (duration_close (ca_seconds ca t)) as D. pose proof (seconds_close t ltac:(lia)) as S.
    assert (inject_Z (Z.abs t) * u53 <= 1 # 2)%Q as B.
    { apply (Qle_trans _ (inject_Z (2 ^ 52) * u53)); [|by vm_compute]. apply Qmult_le_compat_r; [|by vm_compute].
      by rewrite <- Zle_Qle. }
    apply qabs_le in D as [D1 D2]. apply qabs_le in S as [S1 S2]. set (T := seconds2Duration ca (ca_seconds ca t)) in *.
    set (y := (val (ca_seconds ca t) * inject_Z 1000000)%Q) in *.
    assert (T < t + 2 ∧ t < T + 2); [|lia]. rewrite !Zlt_Qlt, !inject_Z_plus. change (inject_Z 2) with 2%Q. lra.
  Qed.

  Lemma trip_time t : 0 <= t < us_per_day →
    0 <= seconds2Duration ca (ca_seconds ca t) ∧ t - 1 <= seconds2Duration ca (ca_seconds ca t) <= t.
  Proof.
    intros Ht. pose proof (duration_close (ca_seconds ca t)) as D.
    assert (Z.abs t = t) as At by lia.
    pose proof (seconds_close t ltac:(unfold us_per_day in Ht; lia)) as S. rewrite At in S.
    assert (inject_Z t * u53 <= 1 # 10000)%Q as B.
    { apply (Qle_trans _ (inject_Z us_per_day * u53)); [|by vm_compute]. apply Qmult_le_compat_r; [|by vm_compute].
      rewrite <- Zle_Qle. lia. }
    apply qabs_le in S as [S1 S2].
    (* the truncation is downwards *)
    assert (0 <= val (ca_seconds ca t))%Q as Hpos.
    { assert (0 <= val (ca_seconds ca t) * inject_Z 1000000)%Q as H.
      { assert (inject_Z t * u53 <= inject_Z t)%Q; [|lra].
        rewrite <- (Qmult_1_r (inject_Z t)) at 2. rewrite !(Qmult_comm (inject_Z t)).
        apply Qmult_le_compat_r; [by vm_compute|]. change 0%Q with (inject_Z 0). rewrite <- Zle_Qle. lia. }
      apply (Qmult_le_r 0 _ (inject_Z 1000000)); [done|]. lra. }
    unfold seconds2Duration in *. rewrite (cf_int _ _ Hf), (cf_fraction _ _ Hf) in *.
    set (x := val (ca_seconds ca t)) in *. pose proof (qtrunc_truncated x) as T. set (n := qtrunc x) in *.
    assert (inject_Z n <= x ∧ x < inject_Z n + 1)%Q as [T1 T2].
    { destruct T as [T|(U1 & U2 & U3)]; [tauto|].
      assert (n = 0) as ->; [|change (inject_Z 0) with 0%Q; lra].
      assert (-1 < n ∧ n < 1); [|lia]. rewrite !Zlt_Qlt. change (inject_Z 1) with 1%Q.
      change (inject_Z (-1)) with (-1)%Q. lra. }
    set (f := ((x - inject_Z n) * inject_Z 1000000)%Q) in *. pose proof (fl_err f) as Ef.
    assert (0 <= f)%Q as F0 by (unfold f; change (inject_Z 1000000) with (1000000 # 1)%Q; lra).
    assert (f <= inject_Z 1000000)%Q as F1 by (unfold f; change (inject_Z 1000000) with (1000000 # 1)%Q; lra).
    rewrite (Qabs_pos f F0) in Ef. apply qabs_le in Ef as [Ef1 Ef2].
    assert (f * u53 <= f ∧ f * u53 <= 1 # 1000000000)%Q as [G1 G2].
    { split.
      - rewrite <- (Qmult_1_r f) at 2. rewrite !(Qmult_comm f). apply Qmult_le_compat_r; [by vm_compute|done].
      - apply (Qle_trans _ (inject_Z 1000000 * u53)); [|by vm_compute]. apply Qmult_le_compat_r; [done|]. by vm_compute. }
    pose proof (qtrunc_truncated (this (fl f))) as Tf. set (y := this (fl f)) in *. set (m := qtrunc y) in *.
    assert (inject_Z m <= y ∧ y < inject_Z m + 1)%Q as [M1 M2].
    { destruct Tf as [Tf|(U1 & U2 & U3)]; [tauto|].
      assert (m = 0) as ->; [|change (inject_Z 0) with 0%Q; lra].
      assert (-1 < m ∧ m < 1); [|lia]. rewrite !Zlt_Qlt. change (inject_Z 1) with 1%Q.
      change (inject_Z (-1)) with (-1)%Q. lra. }
    assert (-1 < m) as Hm by (rewrite Zlt_Qlt; change (inject_Z (-1)) with (-1)%Q; lra).
    assert (-1 < n) as Hn by (rewrite Zlt_Qlt; change (inject_Z (-1)) with (-1)%Q; lra).
    assert (n * 1000000 + m < t + 1 ∧ t - 2 < n * 1000000 + m); [|lia].
    rewrite !Zlt_Qlt, !inject_Z_plus, inject_Z_mult. unfold Z.sub. rewrite inject_Z_plus. change (inject_Z 1) with 1%Q.
    change (inject_Z (- (2))) with (-2)%Q. unfold f in *. change (inject_Z 1000000) with (1000000 # 1)%Q in *. lra.
  Qed.
End Floats.

(** * Texts *)
Lemma pad_number k n : 0 <= n < 10 ^ Z.of_nat (S k) → number_of (S k) n (pad (S k) n).
Proof.
  revert n. induction k as [|k IH]; intros n Hn.
  - cbn [pad app]. change (10 ^ Z.of_nat 1) with 10 in Hn. rewrite Z.mod_small by done.
    split; [split; [done|]|done]. split; [repeat constructor; unfold digit; lia|]. unfold digits_value. cbn [fold_left]. lia.
  - destruct (IH (n / 10)) as [(H1 & H2 & H3) H4].
    { rewrite (Nat2Z.inj_succ (S k)), Z.pow_succ_r in Hn by lia. split; [by apply Z.div_pos; lia|].
      apply Z.div_lt_upper_bound; lia. }
    change (pad (S (S k)) n) with (pad (S k) (n / 10) ++ [48 + n mod 10]).
    pose proof (Z.mod_pos_bound n 10 ltac:(lia)) as B.
    split; [split; [by destruct (pad (S k) (n / 10))|split]|].
    + apply list.Forall_app. split; [done|]. repeat constructor; unfold digit; lia.
    + rewrite digits_value_app, H3. pose proof (Z.div_mod n 10 ltac:(lia)). lia.
    + rewrite app_length, H4. cbn [List.length]. lia.
Qed.

Lemma int_shown n : Z.abs n < 10 ^ 20 → whole_text n (int_show n).
Proof.
  intros H. destruct (uint_text_decimal (Z.abs n) ltac:(lia)) as (H1 & H2 & H3 & _).
  exists (uint_text (Z.abs n)), (Z.abs n). split; [done|].
  unfold int_show. destruct (Z.ltb_spec n 0); [right|left]; split; done || lia.
Qed.

Lemma date_shown d us : python_date d → 0 <= us < us_per_day →
  date_text Iso 45 d (fmtDate (date_us d us)) ∧ zlen (fmtDate (date_us d us)) = 10.
Proof.
  intros [Hy Hv] Hu. unfold fmtDate. rewrite (proj1 (date_us_split d us Hv Hu)).
  destruct Hv as [Hm Hd].
  assert (month_days (yy d) (mm d) <= 31) by (unfold month_days; repeat case_match; lia).
  pose proof (pad_number 3 (yy d) ltac:(simpl; lia)) as N1. pose proof (pad_number 1 (mm d) ltac:(simpl; lia)) as N2.
  pose proof (pad_number 1 (dd d) ltac:(simpl; lia)) as N3.
  split.
  - exists (pad 4 (yy d)), (pad 2 (mm d)), (pad 2 (dd d)). split; [done|]. split; [apply N2|]. split; [apply N3|]. done.
  - rewrite !app_length. destruct N1 as [_ ->], N2 as [_ ->], N3 as [_ ->]. done.
Qed.

Lemma time_shown t us : t mod us_per_day = us → us mod 1000000 = 0 → clock us (fmtTime t).
Proof.
  intros <- H0. unfold fmtTime. pose proof (Z.mod_pos_bound t us_per_day ltac:(done)) as B.
  set (us := t mod us_per_day) in *. set (s := us / 1000000). unfold us_per_day in B.
  assert (us = ((s / 3600 * 60 + s / 60 mod 60) * 60 + s mod 60) * 1000000) as E.
  { unfold s. Z.div_mod_to_equations. lia. }
  rewrite E at 1. apply clock_hms; apply pad_number; simpl; unfold s; Z.div_mod_to_equations; lia.
Qed.

Lemma bool_read b s : bool_text b s → inferBool s = Ok b.
Proof. intros H. unfold inferBool. rewrite map_lower. unfold bool_text in H. rewrite H. by destruct b. Qed.

Lemma moment_unique d us d' us' : moment d us d' us' →
  date_of_days (date_us d us / us_per_day) = d' ∧ date_us d us mod us_per_day = us' ∧ date_us d us = date_us d' us'.
Proof.
  intros (Hv & Hu & E). assert (date_us d us = date_us d' us') as -> by (unfold date_us; lia).
  destruct (date_us_split d' us' Hv Hu). done.
Qed.

Section Reading.
  Context (val : Z → Q) (ca : cast_arith) (Hf : cast_floats val ca) (checks objects : bool).
  Notation conv := (convert ca checks objects).

  Lemma write_str s : write objects (NStr s) = Ok (CStr s). Proof. by destruct objects. Qed.

  Lemma conv_str k s : conv k (CStr s) = res_bind (cast_str ca checks k s) (write objects).
  Proof. done. Qed.

  Lemma conv_shown c : value_ok c → told_by_text c → ∃ s, conv KStr c = Ok (CStr s) ∧ shown c s.
  Proof.
    intros Hv Ht. unfold convert. change (if objects then as_object else as_number) with (write objects).
    destruct c as [|b|n|x|s|d|us|d us]; try done; cbn [cast cast_bool cast_int cast_str cast_date cast_time cast_datetime
      res_bind]; rewrite write_str; eexists; (split; [reflexivity|]); cbn [shown told_by_text value_ok] in *.
    - by destruct b.
    - apply int_shown. lia.
    - done.
    - by apply date_shown.
    - apply time_shown; [by apply Z.mod_small|done].
    - destruct Hv as [Hd Hu]. destruct (date_shown d us Hd Hu) as [H1 H2].
      exists (fmtDate (date_us d us)), (fmtTime (date_us d us)). split; [done|]. split; [done|]. split; [|done].
      apply time_shown; [|done]. by apply date_us_split, Hu; apply Hd.
  Qed.

  Lemma whole_simple n s : whole_text n s → inferFloat_any (ca_floats ca) checks s = Ok (f_parse (ca_floats ca) s).
  Proof.
    intros H. unfold inferFloat_any.
    assert (inferFloat (ca_floats ca) checks true false s = Ok (f_parse (ca_floats ca) s)) as ->; [|done].
    apply simple_spec. rewrite <- no_blanks_spec, (whole_no_blanks n s H). split; [|done].
    destruct H as (ds & m & (H1 & H2 & _) & H).
    assert (digit_run ds) as Hr.
    { right. destruct ds as [|c r]; [done|]. apply list.Forall_cons in H2 as [Hc Hr']. exists c, r. split; [done|].
      split; [done|]. eapply list.Forall_impl; [exact Hr'|]. tauto. }
    assert (∃ sg, s = sg ++ ds ∧ sign_text sg) as (sg & -> & Hsg).
    { destruct H as [[-> _]|[-> _]]; [exists []; split; [done|by left]|].
      exists [45]. split; [done|]. right. exists 45. split; [done|]. by right. }
    exists sg, ds. split; [done|]. split; [done|]. right. right. exists ds, []. split; [done|]. split; [by left|]. left.
    split; [done|]. by rewrite app_nil_r.
  Qed.

  Lemma read_int n s : whole_text n s → conv KInt (CStr s) = Ok (CInt (qtrunc (fl (inject_Z n)))).
  Proof.
    intros H. rewrite conv_str. cbn [cast_str]. rewrite (whole_simple n s H). cbn [res_map res_bind].
    rewrite (cf_int _ _ Hf), (qtrunc_proper _ _ (cf_parse _ _ Hf n s H)). by destruct objects.
  Qed.
  Lemma read_int_exact n s : whole_text n s → - 2 ^ 53 <= n <= 2 ^ 53 → conv KInt (CStr s) = Ok (CInt n).
  Proof.
    intros H Hn. rewrite (read_int n s H). do 2 f_equal. rewrite fl_int by lia.
    rewrite (qtrunc_proper _ (inject_Z n)); [apply qtrunc_int|]. cbn [Q2Qc this]. by rewrite (Qred_correct (inject_Z n)).
  Qed.

  (** a date is no moment *)
  Lemma date_no_moment style sep d s :
    date_text style sep d s → zlen s <= 10 → date_separator sep → valid_ymd d → ¬ late_december style d →
    inferDatetime_any checks s = Err ValueError.
  Proof.
    intros Ht Hl Hs Hv Hd.
    assert (∀ am, inferDatetime checks am s = Err ValueError) as E; [|unfold inferDatetime_any; by rewrite !E].
    intros am. unfold inferDatetime. destruct (decide (style = Compact)) as [->|Hc].
    - destruct Ht as (y & m & n & [Hy Ly] & Hm & Hn & Lm & Ln & ->).
      pose proof (number_digits _ _ Hy) as [Dy _].
      pose proof (number_digits _ _ Hm) as [Dm _]. pose proof (number_digits _ _ Hn) as [Dn _].
      assert (Forall digit (y ++ m ++ n)) as Hdig by (repeat (apply list.Forall_app; split); done).
      rewrite runeLen_ascii by by apply digit_ascii.
      assert (zlen (y ++ m ++ n) = 8) as -> by (rewrite !app_length; lia). done.
    - destruct (text_words style sep d s) as (w0 & w1 & w2 & -> & D0 & D1 & D2 & N0 & N1 & N2 & L0 & L8 & By & Hg);
        [done..|].
      destruct (parse_three w0 w1 w2 sep DONT_CARE true) with (mark := if decide (sep = 32) then 84 else 32) (t := @nil Z) as [Hp _];
        try done.
      { constructor; [|done]. case_decide; lia. } { case_decide; lia. } { case_decide; lia. }
      rewrite Hp. cbn [res_bind]. by case_match.
  Qed.

  Lemma read_date style sep d s :
    date_text style sep d s → zlen s <= 10 → date_separator sep → python_date d → ¬ late_december style d →
    (style = MonthFirst → 12 < dd d) →
    conv KDate (CStr s) = Ok (CDate d) ∧ conv KDateTime (CStr s) = Ok (CDateTime d 0).
  Proof.
    intros Ht Hl Hs Hp Hd Hm. destruct Hp as [Hy Hv].
    pose proof (infer_date_any_all checks style sep d s Ht Hl Hs Hv Hd Hm) as E1.
    pose proof (date_no_moment style sep d s Ht Hl Hs Hv Hd) as E2.
    assert (0 <= 0 < us_per_day) as H0 by done. destruct (date_us_split d 0 Hv H0) as [S1 S2].
    pose proof (date_us_python d 0 (conj Hy Hv) H0) as P.
    rewrite !conv_str. cbn [cast_str]. rewrite E1, E2. cbn [res_map or_else res_bind].
    rewrite write_date by (done || by left). rewrite write_datetime by done. by rewrite S1, S2.
  Qed.

  Lemma read_moment style sep d us s d' us' :
    datetime_text style sep d us s → date_separator sep → valid_ymd d → ¬ late_december style d →
    (style = MonthFirst → 12 < dd d) → moment d us d' us' → python_date d' →
    conv KDateTime (CStr s) = Ok (CDateTime d' us') ∧
    (10 < zlen s → us' = 0 ∨ 0 <= epoch_days d' ∨ objects = true → conv KDate (CStr s) = Ok (CDate d')).
  Proof.
    intros Ht Hs Hv Hd Hm Hmo Hp.
    destruct (infer_datetime_any checks style sep d us s Ht Hs Hv Hd Hm) as (d1 & us1 & Hmo1 & E).
    destruct (moment_unique _ _ _ _ Hmo) as (A1 & A2 & A3), (moment_unique _ _ _ _ Hmo1) as (B1 & B2 & B3).
    rewrite A1 in B1. rewrite A2 in B2. subst d1 us1. clear Hmo1 B3.
    destruct Hmo as (Hv' & Hu' & _). destruct (date_us_split d' us' Hv' Hu') as [S1 S2].
    pose proof (date_us_python d' us' Hp Hu') as P.
    rewrite !conv_str. cbn [cast_str]. rewrite E. cbn [res_map or_else res_bind fst snd]. split.
    - rewrite write_datetime by done. by rewrite S1, S2.
    - intros Hl Hc.
      assert (inferDate_any checks s = Err ValueError) as ->.
      { assert (runeLen s = zlen s) as R.
        { destruct (datetime_words style sep d us s Ht Hs Hv Hd) as (w0 & w1 & w2 & c & rest & t & Hpw & _).
          unfold parseDateWords in Hpw. destruct (Z.eqb_spec (runeLen s) (zlen s)); [done|]. done. }
        assert (∀ a b, inferDate checks a b s = Err ValueError) as F; [|unfold inferDate_any; by rewrite !F].
        intros a b. unfold inferDate. rewrite R. destruct (Z.ltb_spec 10 (zlen s)); [done|lia]. }
      cbn [res_map or_else res_bind]. rewrite write_date; [by rewrite S1|done|].
      rewrite S2. destruct Hc as [?|[?|?]]; [by left|right; left|by right; right].
      unfold date_us, us_per_day in *. lia.
  Qed.

  Lemma read_time us s : time_text us s → 0 <= us → conv KTime (CStr s) = Ok (CTime (us mod us_per_day)).
  Proof.
    intros H Hu. rewrite conv_str. cbn [cast_str]. rewrite (infer_time_text us s H). cbn [res_map res_bind].
    by apply write_time.
  Qed.

  Lemma clock_pos us s : clock us s → 0 <= us.
  Proof.
    assert (∀ n k ds, number_of k n ds → 0 <= n) as N.
    { intros n k ds [H L]. by apply (number_bound n ds k H). }
    inversion 1; subst; repeat match goal with H : number_of _ _ _ |- _ => apply N in H end; lia.
  Qed.

  Lemma read_shown c s : value_ok c → told_by_text c → shown c s → conv (kind_of c) (CStr s) = Ok c.
  Proof.
    intros Hv Ht Hs. destruct c as [|b|n|x|t|d|us|d us]; try done; cbn [kind_of shown told_by_text value_ok] in *.
    - rewrite conv_str. cbn [cast_str]. rewrite (bool_read b s Hs). by destruct objects.
    - by apply read_int_exact.
    - subst s. by apply (convert_own ca checks objects (CStr t)).
    - destruct Hs as [Hs L].
      apply (read_date Iso 45 d s); try done; [lia|by right; right; left|by intros [[|] _]].
    - rewrite (read_time us s); [by rewrite Z.mod_small| |lia].
      left. exists us, s, 0, []. split; [done|]. split; [constructor|]. split; [by rewrite app_nil_r|lia].
    - destruct Hs as (date & time & Hd & L & Hc & ->). destruct Hv as [Hp Hu].
      destruct (read_moment Iso 45 d us (date ++ [32] ++ time) d us) as [E _]; try done.
      + exists date, [32], time. split; [done|]. split; [lia|]. split.
        { left. exists us, time, 0, []. split; [done|]. split; [constructor|]. split; [by rewrite app_nil_r|lia]. }
        split; [done|]. split; [by left|done].
      + by right; right; left.
      + apply Hp.
      + by intros [[|] _].
      + split; [apply Hp|]. split; [done|lia].
  Qed.
End Reading.

(** * Floats by their codes *)
Lemma whole_value_spec n s : whole_text n s → Cast.whole_value s = n.
Proof.
  intros (ds & m & (H1 & H2 & H3) & [[-> ->]|[-> ->]]); [|by cbn; rewrite H3].
  destruct ds as [|c r]; [done|]. apply list.Forall_cons in H2 as [Hc _]. unfold digit in Hc.
  assert (Cast.whole_value (c :: r) = digits_value (c :: r)) as ->; [|done].
  unfold Cast.whole_value. repeat (case_match; try done); lia.
Qed.

Lemma casts_codes : cast_floats coded_number casts_of_codes.
Proof.
  destruct floats_rounded as [R1 R2 R3 R4]. split.
  - by split.
  - intros n s H. cbn [casts_of_codes ca_floats floats_of_codes f_parse]. rewrite (whole_value_spec n s H).
    by rewrite number_code.
  - intros x. cbn. apply Qle_bool_iff.
  - done.
  - done.
  - intros n. cbn [casts_of_codes ca_seconds]. by rewrite number_code.
Qed.

(** * Summary *)
Section Summary.
  Context (val : Z → Q) (ca : cast_arith) (Hf : cast_floats val ca) (checks objects : bool).
  Notation conv := (convert ca checks objects).

  Lemma duration_of x q : (val x == q)%Q → seconds2Duration ca x
    = qtrunc q * 1000000 + qtrunc (fl ((q - inject_Z (qtrunc q)) * inject_Z 1000000)).
  Proof.
    intros E. unfold seconds2Duration. rewrite (cf_int _ _ Hf), (cf_fraction _ _ Hf), (qtrunc_proper _ _ E).
    by rewrite (fl_proper _ ((q - inject_Z (qtrunc q)) * inject_Z 1000000)%Q) by (by rewrite E).
  Qed.

  Lemma trip_249 : ∃ x, conv KFloat (CTime 249) = Ok (CFloat x) ∧ conv KTime (CFloat x) = Ok (CTime 248).
  Proof.
    exists (ca_seconds ca 249). split; [by destruct objects|].
    unfold convert. change (if objects then as_object else as_number) with (write objects). cbn [cast cast_float res_bind].
    rewrite (duration_of _ (2296619637176839 # 9223372036854775808)).
    - destruct objects; by vm_compute.
    - rewrite (cf_seconds _ _ Hf). by vm_compute.
  Qed.

  Lemma half_before x : (val x == - (1 # 2))%Q → conv KDate (CFloat x) = Ok (CDate (Ymd 1970 1 1)).
  Proof.
    intros E. unfold convert. change (if objects then as_object else as_number) with (write objects). cbn [cast cast_float res_bind].
    rewrite (cf_int _ _ Hf), (qtrunc_proper _ _ E). destruct objects; by vm_compute.
  Qed.

  Lemma text_trip c : value_ok c → told_by_text c →
    ∃ s, conv KStr c = Ok (CStr s) ∧ shown c s ∧ conv (kind_of c) (CStr s) = Ok c.
  Proof.
    intros Hv Ht. destruct (conv_shown ca checks objects c Hv Ht) as (s & H1 & H2). exists s. split; [done|].
    split; [done|]. by apply (read_shown val ca Hf).
  Qed.

  Lemma datetime_trip d us : value_ok (CDateTime d us) →
    (Qabs (midnight d + micro us) <= inject_Z 4503599627)%Q →
    ∃ x d' us', conv KFloat (CDateTime d us) = Ok (CFloat x) ∧ conv KDateTime (CFloat x) = Ok (CDateTime d' us') ∧
      valid_ymd d' ∧ 0 <= us' < us_per_day ∧ (Qabs (midnight d' + micro us' - (midnight d + micro us)) <= micro 1)%Q.
  Proof.
    intros [Hp Hu] Hq. rewrite <- micro_us in Hq.
    assert (Z.abs (date_us d us) <= 4503599627000000) as Ht.
    { assert (Qabs (micro (date_us d us)) == micro (Z.abs (date_us d us)))%Q as E by (unfold micro, Qeq; cbn; lia).
      rewrite E, micro_int, micro_le in Hq. lia. }
    pose proof (trip_close val ca Hf (date_us d us) ltac:(lia)) as C. set (t := date_us d us) in *.
    exists (ca_seconds ca t). set (T := seconds2Duration ca (ca_seconds ca t)) in *.
    exists (date_of_days (T / us_per_day)), (T mod us_per_day).
    assert (python_us T) as P by (unfold python_us; lia).
    split; [by destruct objects|]. split.
    { unfold convert. change (if objects then as_object else as_number) with (write objects).
      cbn [cast cast_float res_bind]. by rewrite write_datetime. }
    split; [apply epoch_of_days|]. split; [by apply Z.mod_pos_bound|].
    rewrite midnight_days, <- micro_plus, (Z.mul_comm (T / _)), <- Z.div_mod by done.
    rewrite <- micro_us. fold t.
    assert (Qabs (micro T - micro t) == micro (Z.abs (T - t)))%Q as -> by (unfold micro, Qeq; cbn; lia).
    by apply micro_le.
  Qed.

  Lemma time_trip us : 0 <= us < us_per_day →
    ∃ x us', conv KFloat (CTime us) = Ok (CFloat x) ∧ conv KTime (CFloat x) = Ok (CTime us') ∧ (us' = us ∨ us' = us - 1).
  Proof.
    intros Hu. destruct (trip_time val ca Hf us Hu) as [H1 H2]. exists (ca_seconds ca us). eexists.
    split; [by destruct objects|]. split.
    - unfold convert. change (if objects then as_object else as_number) with (write objects).
      cbn [cast cast_float res_bind]. by apply write_time.
    - rewrite Z.mod_small by lia. lia.
  Qed.

  Lemma float_moment x :
    (inject_Z (-62135596799) <= val x)%Q → (val x <= inject_Z 253402300799)%Q →
    ∃ d us, conv KDateTime (CFloat x) = Ok (CDateTime d us) ∧ valid_ymd d ∧ 0 <= us < us_per_day ∧
      (Qabs (midnight d + micro us - val x) < micro 2)%Q.
  Proof.
    intros H1 H2. pose proof (duration_close val ca Hf x) as C. set (T := seconds2Duration ca x) in *.
    apply qabs_le in C as [C1 C2]. change (inject_Z 1000000) with (1000000 # 1)%Q in *.
    assert (python_us T) as P.
    { unfold python_us.
      assert (-62135596799000002 < T ∧ T < 253402300799000002); [|lia]. rewrite !Zlt_Qlt.
      change (inject_Z (-62135596799)) with (-62135596799 # 1)%Q in *. change (inject_Z 253402300799) with (253402300799 # 1)%Q in *.
      change (inject_Z (-62135596799000002)) with (-62135596799000002 # 1)%Q in *.
      change (inject_Z 253402300799000002) with (253402300799000002 # 1)%Q in *. lra. }
    exists (date_of_days (T / us_per_day)), (T mod us_per_day). split.
    { unfold convert. change (if objects then as_object else as_number) with (write objects).
      cbn [cast cast_float res_bind]. by rewrite write_datetime. }
    split; [apply epoch_of_days|]. split; [by apply Z.mod_pos_bound|].
    rewrite midnight_days, <- micro_plus, (Z.mul_comm (T / _)), <- Z.div_mod by done.
    unfold micro. change (inject_Z 2 / inject_Z 1000000)%Q with (2 # 1000000)%Q.
    assert (inject_Z T / inject_Z 1000000 == inject_Z T * (1 # 1000000))%Q as -> by (unfold Qdiv, Qeq; cbn; lia).
    apply Qabs_case; intros; lra.
  Qed.
End Summary.
