From Coq Require Import String.
From Verif.Model Require Export Infer.
From Verif.Proof Require Import DatesProofs PicklePageProofs NpyProofs.
Local Open Scope Z_scope.

(** * Digits *)
Lemma isDigit_spec c : isDigit c = true ↔ digit c.
Proof. unfold isDigit, digit. lia. Qed.
Lemma isDigit_false c : isDigit c = false ↔ ¬ digit c.
Proof. unfold isDigit, digit. lia. Qed.

Lemma fold_digits ds v : fold_left (λ v d, 10 * v + (d - 48)) ds v = v * 10 ^ zlen ds + digits_value ds.
Proof.
  unfold digits_value. revert v. induction ds as [|d ds IH]; intros v; cbn [fold_left List.length].
  - change (10 ^ Z.of_nat 0) with 1. lia.
  - rewrite IH, (IH (10 * 0 + (d - 48))). rewrite Nat2Z.inj_succ, Z.pow_succ_r by lia. lia.
Qed.

Lemma digits_cons d ds : digits_value (d :: ds) = (d - 48) * 10 ^ zlen ds + digits_value ds.
Proof. unfold digits_value at 1. cbn [fold_left]. rewrite fold_digits. lia. Qed.

Lemma digits_app a b : digits_value (a ++ b) = digits_value a * 10 ^ zlen b + digits_value b.
Proof. unfold digits_value at 1. rewrite fold_left_app. by rewrite fold_digits. Qed.

Lemma digits_bound ds : Forall digit ds → 0 <= digits_value ds < 10 ^ zlen ds.
Proof.
  induction 1 as [|d ds Hd _ IH]; [done|]. rewrite digits_cons. cbn [List.length].
  rewrite Nat2Z.inj_succ, Z.pow_succ_r by lia. unfold digit in Hd. nia.
Qed.

Lemma parseInt_number n ds : number n ds → zlen ds <= 18 → parseInt ds = Ok n.
Proof.
  intros (H1 & H2 & H3) Hl. pose proof (digits_bound ds H2) as Hb.
  assert (10 ^ zlen ds <= 10 ^ 18) by (apply Z.pow_le_mono_r; lia).
  unfold parseInt.
  assert (parse_uint ds = Ok n) as Hp.
  { unfold parse_uint. rewrite parse_digits_value by done. destruct ds as [|d ds]; [done|].
    apply list.Forall_cons in H2 as [Hd _]. apply isDigit_spec in Hd. rewrite Hd. by rewrite <- H3. }
  destruct ds as [|d ds']; [done|]. apply list.Forall_cons in H2 as [Hd _]. unfold digit in Hd.
  rewrite !(proj2 (Z.eqb_neq _ _)) by lia. rewrite Hp.
  cbn [res_bind]. rewrite (proj2 (Z.leb_le _ _)), (proj2 (Z.ltb_lt _ _)) by lia. done.
Qed.

Lemma number_bound n ds k : number n ds → length ds = k → 0 <= n < 10 ^ Z.of_nat k.
Proof. intros (_ & H & <-) <-. by apply digits_bound. Qed.

Lemma two_digits n ds : number_of 2 n ds →
  ∃ a b, ds = [a; b] ∧ parseInt [a; b] = Ok n ∧ 0 <= n < 100 ∧ digit a ∧ digit b.
Proof.
  intros [Hn Hl]. destruct ds as [|a [|b [|]]]; try done. exists a, b. split; [done|].
  split; [by apply parseInt_number|]. pose proof (number_bound n _ 2 Hn eq_refl) as Hb.
  destruct Hn as (_ & H & _). apply list.Forall_cons in H as [? H]. apply list.Forall_cons in H as [? _].
  split; [lia|]. done.
Qed.

(** * The calendar *)
Lemma month_start_succ y m : 1 <= m → month_start y (m + 1) = month_start y m + month_days y m.
Proof.
  intros Hm. unfold month_start. replace (m + 1 - 1) with ((m - 1) + 1) by lia.
  rewrite seqZ_app by lia. rewrite map_app, foldr_app.
  assert (seqZ (1 + (m - 1)) 1 = [m]) as ->.
  { unfold seqZ. change (Z.to_nat 1) with 1%nat. cbn. f_equal. lia. }
  cbn [map foldr]. generalize (map (month_days y) (seqZ 1 (m - 1))). intros l.
  induction l as [|x l IH]; cbn [foldr]; lia.
Qed.

Lemma year_length y : month_start y 13 = if gleap y then 366 else 365.
Proof. unfold month_start, month_days. destruct (gleap y); reflexivity. Qed.

Lemma epoch_next d : valid_ymd d → epoch_days (next_day d) = epoch_days d + 1.
Proof.
  intros [Hm Hd]. unfold next_day, epoch_days.
  destruct (Z.ltb_spec (dd d) (month_days (yy d) (mm d))); cbn [yy mm dd]; [lia|].
  destruct (Z.ltb_spec (mm d) 12); cbn [yy mm dd].
  - rewrite month_start_succ by lia. lia.
  - replace (mm d) with 12 in * by lia. change (month_start (yy d + 1) 1) with 0.
    pose proof (month_start_succ (yy d) 12) as Hs. change (12 + 1) with 13 in Hs. rewrite (year_length (yy d)) in Hs.
    assert (dd d = month_days (yy d) 12) as -> by lia.
    unfold gleap in Hs. revert Hs. generalize (month_start (yy d) 12), (month_days (yy d) 12).
    intros a b Hs. specialize (Hs ltac:(lia)).
    destruct (Z.eqb_spec (yy d mod 400) 0), (Z.eqb_spec (yy d mod 4) 0), (Z.eqb_spec (yy d mod 100) 0);
      cbn [orb andb negb] in Hs; Z.div_mod_to_equations; lia.
Qed.

Lemma epoch_of_days n : valid_ymd (date_of_days n) ∧ epoch_days (date_of_days n) = n.
Proof.
  assert (∀ n, valid_ymd (date_of_days n) ∧ date_of_days (n + 1) = next_day (date_of_days n)) as Hs.
  { intros k. destruct (days_step k) as (d & H1 & H2 & H3). unfold date_of_days. rewrite H1, H3. done. }
  split; [apply Hs|].
  assert (∀ k, 0 <= k → epoch_days (date_of_days k) = k) as Hp.
  { apply natlike_ind; [reflexivity|]. intros k Hk IH. destruct (Hs k) as [Hv E].
    change (Z.succ k) with (k + 1). rewrite E, epoch_next by done. lia. }
  assert (∀ k, 0 <= k → epoch_days (date_of_days (- k)) = - k) as Hq.
  { apply natlike_ind; [reflexivity|]. intros k Hk IH. destruct (Hs (- Z.succ k)) as [Hv E].
    replace (- Z.succ k + 1) with (- k) in E by lia. rewrite E, epoch_next in IH by done. lia. }
  destruct (Z.le_ge_cases 0 n); [by apply Hp|]. replace n with (- - n) by lia. apply Hq. lia.
Qed.

Lemma getDaysInMonth_spec y m : 1 <= m <= 12 → getDaysInMonth y m = month_days y m.
Proof.
  intros Hm. unfold getDaysInMonth.
  rewrite isLeapYear_gleap.
  assert (m ∈ seqZ 1 12) as H by (apply elem_of_seqZ; lia). revert H.
  intros H. unfold month_days, DAYS_PER_MONTH.
  change (seqZ 1 12) with [1;2;3;4;5;6;7;8;9;10;11;12] in H.
  rewrite !elem_of_cons, elem_of_nil in H.
  repeat (destruct H as [-> | H]; [by destruct (gleap y)|]). done.
Qed.

(** * Texts of ASCII characters *)
Lemma runeLen_ascii s : Forall (λ c, 0 <= c <= 127) s → runeLen s = zlen s.
Proof.
  unfold runeLen. induction 1 as [|c s Hc _ IH]; [done|]. cbn [List.length runeLen_loop].
  unfold runeLenAt. rewrite (proj2 (Z.leb_le _ _)) by lia. cbv iota. cbn [drop].
  unfold drop. rewrite IH. lia.
Qed.

Lemma digit_ascii s : Forall digit s → Forall (λ c, 0 <= c <= 127) s.
Proof. intros H. eapply list.Forall_impl; [exact H|]. unfold digit. lia. Qed.

Lemma date_loop_digits at_ g : Forall digit g → ∀ s cur act ws,
  date_loop at_ (g ++ s) cur true act ws = date_loop at_ s (cur ++ g) true act ws.
Proof.
  induction 1 as [|c g Hc Hg IH]; intros s cur act ws; [by rewrite app_nil_r|].
  cbn [app date_loop]. apply isDigit_spec in Hc. rewrite Hc, IH. by rewrite <- app_assoc.
Qed.

Lemma date_loop_word at_ g s cur act ws : Forall digit g → g ≠ [] →
  date_loop at_ (g ++ s) cur false act ws = date_loop at_ s g true act ws.
Proof.
  intros Hg Hne. destruct g as [|c g]; [done|]. apply list.Forall_cons in Hg as [Hc Hg].
  cbn [app date_loop]. apply isDigit_spec in Hc. rewrite Hc.
  by rewrite date_loop_digits.
Qed.

Lemma date_loop_sep at_ sep s cur b act ws : ¬ digit sep → act = None ∨ act = Some sep →
  (length ws < 3)%nat →
  date_loop at_ (sep :: s) cur b act ws = date_loop at_ s (cur ++ [sep]) false (Some sep) (ws ++ [cur]).
Proof.
  intros Hs Ha Hl. cbn [date_loop]. apply isDigit_false in Hs. rewrite Hs.
  rewrite bool_decide_eq_true_2 by done. destruct (Nat.leb_spec 3 (length ws)); [lia|done].
Qed.

Lemma has_tokens_take at_ g sep s k : Forall digit g → date_separator sep → (length g < k)%nat →
  has_tokens at_ (take k (g ++ sep :: s)) = Ok true.
Proof.
  intros Hg Hs. revert k. induction Hg as [|c g Hc Hg IH]; intros k Hk.
  - destruct k; [simpl in Hk; lia|]. cbn [app take has_tokens].
    assert (isDigit sep = false) as -> by (unfold isDigit, date_separator in *; lia).
    assert (accepted_token sep = true) as ->; [|done].
    unfold accepted_token, date_separator in *; lia.
  - destruct k; [simpl in Hk; lia|]. cbn [app take has_tokens]. apply isDigit_spec in Hc. rewrite Hc.
    apply IH. simpl in Hk. lia.
Qed.

Lemma has_tokens_digits at_ s : Forall digit s → has_tokens at_ s = Ok false.
Proof.
  induction 1 as [|c s Hc _ IH]; [done|]. cbn [has_tokens]. apply isDigit_spec in Hc. by rewrite Hc.
Qed.

(** three numbers between separators *)
Lemma parse_three w0 w1 w2 sep short at_ : Forall digit w0 → Forall digit w1 → Forall digit w2 →
  w0 ≠ [] → w1 ≠ [] → w2 ≠ [] → (length w0 <= 4)%nat → date_separator sep → short ≠ REQUIRED →
  ∀ mark t, Forall (λ c, 0 <= c <= 127) (mark :: t) → mark ≠ sep → mark = 32 ∨ mark = 84 →
  parseDateWords (w0 ++ [sep] ++ w1 ++ [sep] ++ w2) short at_ = Ok (w0, w1, w2, [])
  ∧ parseDateWords ((w0 ++ [sep] ++ w1 ++ [sep] ++ w2) ++ mark :: t) short true = Ok (w0, w1, w2, mark :: t).
Proof.
  intros H0 H1 H2 N0 N1 N2 Hl Hs Hr mark t Ht Hm Hmark.
  assert (¬ digit sep) as Hsd by (unfold digit, date_separator in *; lia).
  assert (Forall (λ c, 0 <= c <= 127) (w0 ++ [sep] ++ w1 ++ [sep] ++ w2)) as Ha.
  { repeat (apply list.Forall_app; split); try by apply digit_ascii.
    all: repeat constructor; unfold date_separator in Hs; lia. }
  assert (∀ r, starts_with_digit ((w0 ++ [sep] ++ w1 ++ [sep] ++ w2) ++ r) = true) as Hst.
  { intros r. destruct w0 as [|c w0]; [done|]. cbn. apply isDigit_spec. by apply list.Forall_cons in H0 as [? _]. }
  assert (∀ b r, date_loop b ((w0 ++ [sep] ++ w1 ++ [sep] ++ w2) ++ r) [] false None []
                 = date_loop b r w2 true (Some sep) [w0; w1]) as Hloop.
  { intros b r. rewrite <- !app_assoc. rewrite date_loop_word by done. cbn [app].
    rewrite date_loop_sep; [|done|by left|simpl; lia].
    rewrite date_loop_word by done. rewrite date_loop_sep; [|done|by right|simpl; lia].
    by rewrite date_loop_word. }
  assert (∀ b r, has_tokens b (take 5 ((w0 ++ [sep] ++ w1 ++ [sep] ++ w2) ++ r)) = Ok true) as Htok.
  { intros b r. rewrite <- !app_assoc. cbn [app]. apply has_tokens_take; [done|done|lia]. }
  split.
  - unfold parseDateWords. rewrite runeLen_ascii by done. rewrite Z.eqb_refl. cbn [negb].
    specialize (Htok at_ []). specialize (Hloop at_ []). specialize (Hst []). rewrite app_nil_r in *.
    rewrite Htok, Hst, Hloop. cbn. destruct w2; [done|]. by destruct short.
  - unfold parseDateWords. rewrite runeLen_ascii by (apply list.Forall_app; split; done).
    rewrite Z.eqb_refl. cbn [negb]. rewrite Htok, Hst, Hloop. cbn [res_bind date_loop].
    assert (isDigit mark = false) as -> by (unfold isDigit; lia).
    rewrite bool_decide_eq_false_2 by (intros [?|?]; congruence).
    assert (((mark =? 32) || (mark =? 84)) = true) as -> by lia.
    cbn. destruct w2; [done|]. by destruct short.
Qed.

(** * Completeness for dates *)
Lemma words_date checks am w0 w1 w2 y m d :
  guessDate w0 w1 w2 am = Ok (y, m, d) → 0 <= y <= 9999 → valid_ymd (Ymd y m d) →
  wordsToDate checks w0 w1 w2 am = Ok (Ymd y m d).
Proof.
  intros Hg Hy [Hm Hd]. cbn [yy mm dd] in *. unfold wordsToDate. rewrite Hg. cbn [res_bind].
  rewrite getDaysInMonth_spec by done.
  assert ((y <? 0) || (9999 <? y) = false) as -> by lia.
  assert ((m <? 1) || (12 <? m) = false) as -> by lia.
  assert ((month_days y m <? d) || (d <? 0) = false) as -> by lia.
  unfold newPyDate. by rewrite (proj2 (Z.leb_le _ _)) by lia.
Qed.

Lemma month_days_31 y m : month_days y m <= 31.
Proof. unfold month_days. repeat case_match; lia. Qed.

Lemma guess_iso y m n am d : number_of 4 (yy d) y → number (mm d) m → number (dd d) n →
  zlen m <= 18 → zlen n <= 18 → am = false → guessDate y m n am = Ok (yy d, mm d, dd d).
Proof.
  intros [Hy Hl] Hm Hn Lm Ln ->. unfold guessDate. rewrite Hl. cbn.
  rewrite (parseInt_number (yy d) y), (parseInt_number (mm d) m), (parseInt_number (dd d) n) by (done || lia).
  done.
Qed.

Lemma guess_last y a b va vb (am : bool) vy : number_of 4 vy y → number va a → number vb b →
  zlen a <= 18 → zlen b <= 18 → zlen a ≠ 4 →
  0 < va → 0 < vb → (if am then va <= 12 ∧ ¬ (va = 12 ∧ 12 < vb) else vb <= 12 ∧ ¬ (vb = 12 ∧ 12 < va)) →
  guessDate a b y am = Ok (if am then (vy, va, vb) else (vy, vb, va)).
Proof.
  intros [Hy Hl] Ha Hb La Lb Na Pa Pb Hr. unfold guessDate. rewrite (proj2 (Z.eqb_neq _ _) Na). rewrite Hl. cbn [Z.eqb].
  assert ((Z.of_nat 4 =? 4) = true) as -> by done.
  rewrite (parseInt_number _ y), (parseInt_number _ a), (parseInt_number _ b) by (done || lia).
  cbn [res_bind].
  assert ((va <=? 0) || (vb <=? 0) || (12 <? va) && (12 <? vb) = false) as -> by (destruct am; lia).
  destruct ((va <=? 12) && (vb <=? 12)) eqn:E; [done|].
  destruct am.
  - assert ((va <? 12) = true) as -> by lia. done.
  - assert ((va <? 12) = false) as -> by lia. assert ((vb <? 12) = true) as -> by lia. done.
Qed.

Lemma number_digits n ds : number n ds → Forall digit ds ∧ ds ≠ [].
Proof. intros (? & ? & _). done. Qed.

Lemma text_words style sep d s : date_text style sep d s → zlen s <= 10 → valid_ymd d → style ≠ Compact →
  ¬ late_december style d →
  ∃ w0 w1 w2, s = w0 ++ [sep] ++ w1 ++ [sep] ++ w2 ∧ Forall digit w0 ∧ Forall digit w1 ∧ Forall digit w2 ∧
    w0 ≠ [] ∧ w1 ≠ [] ∧ w2 ≠ [] ∧ (length w0 <= 4)%nat ∧ 8 <= zlen s ∧ 0 <= yy d <= 9999 ∧
    guessDate w0 w1 w2 (month_first style) = Ok (yy d, mm d, dd d).
Proof.
  intros (y & m & n & Hy & Hm & Hn & Hs) Hl [Hv1 Hv2] Hc Hd.
  pose proof (number_bound _ _ 4 (proj1 Hy) (proj2 Hy)) as By.
  pose proof (number_digits _ _ (proj1 Hy)) as [Dy Ny].
  pose proof (number_digits _ _ Hm) as [Dm Nm]. pose proof (number_digits _ _ Hn) as [Dn Nn].
  pose proof (proj2 Hy) as Ly.
  assert (length m ≠ 0%nat) by (by destruct m). assert (length n ≠ 0%nat) by (by destruct n).
  change (10 ^ Z.of_nat 4) with 10000 in By. unfold late_december in Hd.
  destruct style; [| | |done]; subst s; rewrite !app_length in *; cbn [List.length] in *.
  - exists y, m, n. repeat (split; [done || lia|]). by apply guess_iso; try lia.
  - exists n, m, y. repeat (split; [done || lia|]).
    cbn [month_first]. rewrite (guess_last y n m (dd d) (mm d) false (yy d)); try done; try lia.
    split; [lia|]. intros [??]. apply Hd. auto.
  - exists m, n, y. repeat (split; [done || lia|]).
    cbn [month_first]. rewrite (guess_last y m n (mm d) (dd d) true (yy d)); try done; try lia.
    split; [lia|]. intros [??]. apply Hd. auto.
Qed.

Lemma ascii_three w0 w1 w2 sep : Forall digit w0 → Forall digit w1 → Forall digit w2 → date_separator sep →
  Forall (λ c, 0 <= c <= 127) (w0 ++ [sep] ++ w1 ++ [sep] ++ w2).
Proof.
  intros. repeat (apply list.Forall_app; split); try by apply digit_ascii.
  all: repeat constructor; unfold date_separator in *; lia.
Qed.

Global Instance date_style_eq_dec : EqDecision date_style.
Proof. solve_decision. Defined.

Lemma infer_date checks style sep d s :
  date_text style sep d s → zlen s <= 10 → date_separator sep → valid_ymd d → ¬ late_december style d →
  inferDate checks (compact style) (month_first style) s = Ok d.
Proof.
  intros Ht Hl Hs Hv Hd. destruct (decide (style = Compact)) as [->|Hc].
  - destruct Ht as (y & m & n & [Hy Ly] & Hm & Hn & Lm & Ln & ->).
    pose proof (number_digits _ _ Hy) as [Dy _].
    pose proof (number_digits _ _ Hm) as [Dm _]. pose proof (number_digits _ _ Hn) as [Dn _].
    pose proof (number_bound _ _ 4 Hy Ly) as By. change (10 ^ Z.of_nat 4) with 10000 in By.
    assert (Forall digit (y ++ m ++ n)) as Hdig by (repeat (apply list.Forall_app; split); done).
    unfold inferDate. rewrite runeLen_ascii by by apply digit_ascii.
    assert (zlen (y ++ m ++ n) = 8) as L8 by (rewrite !app_length; lia). rewrite L8.
    cbn [Z.ltb orb Z.compare Pos.compare Pos.compare_cont compact]. unfold parseDateWords.
    rewrite runeLen_ascii by by apply digit_ascii. rewrite Z.eqb_refl. cbn [negb].
    rewrite has_tokens_digits by by apply Forall_take.
    cbn [res_bind]. rewrite L8. cbn [Z.ltb orb Z.compare Pos.compare Pos.compare_cont].
    rewrite take_app_alt by done. rewrite drop_app_alt by done. rewrite take_app_alt by done.
    replace (drop 6 (y ++ m ++ n)) with n.
    2:{ rewrite (app_assoc y m n). rewrite drop_app_alt; [done|]. rewrite app_length. lia. }
    rewrite take_ge by lia. destruct d as [Y M D]. apply words_date; [|cbn in *; lia|done].
    by apply (guess_iso y m n _ (Ymd Y M D)); try lia.
  - destruct (text_words style sep d s) as (w0 & w1 & w2 & -> & D0 & D1 & D2 & N0 & N1 & N2 & L0 & L8 & By & Hg);
      [done..|].
    destruct (parse_three w0 w1 w2 sep NEVER false) with (mark := 84) (t := @nil Z) as [Hp _]; try done.
    { repeat constructor; lia. } { unfold date_separator in Hs; lia. } { by right. }
    unfold inferDate. rewrite runeLen_ascii by by apply ascii_three.
    assert (((10 <? zlen (w0 ++ [sep] ++ w1 ++ [sep] ++ w2)) || (zlen (w0 ++ [sep] ++ w1 ++ [sep] ++ w2) <? 8)) = false)
      as -> by lia.
    replace (compact style) with false by (by destruct style). rewrite Hp. cbn [res_bind].
    destruct d as [Y M D]. by apply words_date.
Qed.

Lemma infer_date_any checks style sep d s :
  date_text style sep d s → zlen s <= 10 → date_separator sep → valid_ymd d → ¬ late_december style d →
  style = MonthFirst → 12 < dd d → inferDate_any checks s = Ok d.
Proof.
  intros Ht Hl Hs Hv Hd -> H12. pose proof (infer_date checks MonthFirst sep d s Ht Hl Hs Hv Hd) as Ha.
  cbn [compact month_first] in Ha. unfold inferDate_any. rewrite Ha.
  assert (∃ e, inferDate checks false false s = Err e) as [e ->]; [|done].
  destruct Ht as (y & m & n & [Hy Ly] & Hm & Hn & ->).
  pose proof (number_digits _ _ Hy) as [Dy Ny].
  pose proof (number_digits _ _ Hm) as [Dm Nm]. pose proof (number_digits _ _ Hn) as [Dn Nn].
  assert (length m ≠ 0%nat) by (by destruct m). assert (length n ≠ 0%nat) by (by destruct n).
  pose proof Hl as Hl'. rewrite !app_length in Hl'. cbn [List.length] in Hl'.
  destruct (parse_three m n y sep NEVER false) with (mark := 84) (t := @nil Z) as [Hp _]; try done; try lia.
  { repeat constructor; lia. } { unfold date_separator in Hs; lia. }
  unfold inferDate. case_match; [by eexists|]. rewrite Hp. cbn [res_bind]. unfold wordsToDate, guessDate.
  rewrite (proj2 (Z.eqb_neq (zlen m) 4)) by lia. rewrite Ly. assert ((Z.of_nat 4 =? 4) = true) as -> by done.
  rewrite (parseInt_number _ y), (parseInt_number _ m), (parseInt_number _ n) by (done || lia).
  cbn [res_bind]. destruct Hv as [Hv _]. unfold late_december in Hd.
  assert ((mm d <=? 0) || (dd d <=? 0) || (12 <? mm d) && (12 <? dd d) = false) as -> by lia.
  assert ((mm d <=? 12) && (dd d <=? 12) = false) as -> by lia.
  assert ((mm d <? 12) = true) as ->; [|by eexists].
  destruct (Z.eq_dec (mm d) 12); [exfalso; apply Hd; auto|lia].
Qed.

Lemma infer_date_any_compact checks sep d s :
  date_text Compact sep d s → valid_ymd d → inferDate_any checks s = Ok d.
Proof.
  intros Ht Hv.
  assert (zlen s <= 10 ∧ Forall digit s) as [Hl Hg].
  { destruct Ht as (y & m & n & [Hy Ly] & Hm & Hn & Lm & Ln & ->). rewrite !app_length.
    split; [lia|]. repeat (apply list.Forall_app; split); by eapply number_digits. }
  assert (date_text Compact 32 d s) as Ht'.
  { destruct Ht as (y & m & n & H). by exists y, m, n. }
  pose proof (infer_date checks Compact 32 d s Ht' Hl) as Ha. cbn [compact month_first] in Ha.
  unfold inferDate_any. rewrite Ha; [|by left|done|by intros [[?|?] _]].
  assert (∀ am, ∃ e, inferDate checks false am s = Err e) as He; [|by destruct (He false) as [? ->], (He true) as [? ->]].
  intros am. unfold inferDate. case_match; [by eexists|]. unfold parseDateWords.
  rewrite runeLen_ascii by by apply digit_ascii. rewrite Z.eqb_refl. cbn [negb].
  rewrite has_tokens_digits by by apply Forall_take. cbn [res_bind]. rewrite orb_true_r. by eexists.
Qed.

(** * Soundness for dates *)
Fixpoint joined (sep : Z) (ws : list (list Z)) : list Z :=
  match ws with [] => [] | [w] => w | w :: ws => w ++ sep :: joined sep ws end.

Definition good_word (sep : Z) (w : list Z) : Prop :=
  ∃ c r, w = c :: r ∧ digit c ∧ Forall (λ x, digit x ∨ x = sep) r.

Lemma good_snoc sep w x : good_word sep w → digit x ∨ x = sep → good_word sep (w ++ [x]).
Proof.
  intros (c & r & -> & Hc & Hr) Hx. exists c, (r ++ [x]). split; [done|]. split; [done|].
  apply list.Forall_app; split; [done|]. constructor; [done|constructor].
Qed.

Lemma parse_digits_inv sep ds v n : sep ≠ 95 → Forall (λ x, digit x ∨ x = sep) ds →
  ¬ digit sep → parse_digits v ds = Ok n → Forall digit ds.
Proof.
  intros Hs H Hd. revert v. induction H as [|c ds Hc _ IH]; intros v Hp; [constructor|].
  cbn [parse_digits] in Hp. destruct (isDigit c) eqn:E.
  - constructor; [by apply isDigit_spec|]. by eapply IH.
  - exfalso. destruct Hc as [Hc%isDigit_spec| ->]; [congruence|].
    by rewrite (proj2 (Z.eqb_neq _ _) Hs) in Hp.
Qed.

Lemma parseInt_good sep w n : date_separator sep → good_word sep w → parseInt w = Ok n → number n w.
Proof.
  intros Hs (c & r & -> & Hc & Hr) Hp.
  assert (Forall digit (c :: r)) as Hall.
  { unfold parseInt in Hp. unfold digit in Hc. rewrite !(proj2 (Z.eqb_neq _ _)) in Hp by lia.
    destruct (parse_uint (c :: r)) as [v|] eqn:E; [|done]. unfold parse_uint in E.
    assert (isDigit c = true) as Hi by (by apply isDigit_spec). rewrite Hi in E.
    eapply (parse_digits_inv sep); [| | |exact E].
    - unfold date_separator in Hs; lia.
    - constructor; [by left|done].
    - unfold date_separator, digit in *; lia. }
  split; [done|]. split; [done|]. unfold parseInt in Hp. unfold digit in Hc.
  rewrite !(proj2 (Z.eqb_neq _ _)) in Hp by lia. unfold parse_uint in Hp.
  assert (isDigit c = true) as Hi by (by apply isDigit_spec). rewrite Hi, parse_digits_value in Hp by done.
  cbn [res_bind] in Hp. case_match; [|done]. by injection Hp as <-.
Qed.

Lemma date_loop_inv sep s : ¬ digit sep → ∀ cur wd ws ws' c' r, good_word sep cur →
  date_loop false s cur wd (Some sep) ws = Ok (ws', c', r) →
  r = [] ∧ ∃ vs, ws' = ws ++ vs ∧ Forall (good_word sep) (vs ++ [c']) ∧
    (Forall (Forall digit) (vs ++ [c']) → (wd = false → ¬ Forall digit cur) →
     joined sep (vs ++ [c']) = (if wd then cur else []) ++ s).
Proof.
  intros Hs. induction s as [|x s IH]; intros cur wd ws ws' c' r Hg Hl; cbn [date_loop] in Hl.
  - injection Hl as <- <- <-. split; [done|]. exists []. rewrite app_nil_r. split; [done|].
    split; [by repeat constructor|]. intros Hd Hw. apply list.Forall_cons in Hd as [Hd _].
    destruct wd; [by rewrite app_nil_r|]. by destruct (Hw eq_refl).
  - destruct (isDigit x) eqn:Ex.
    + pose proof (proj1 (isDigit_spec x) Ex) as Hx.
      apply IH in Hl as [-> (vs & -> & Hgs & Hj)].
      2:{ destruct wd; [apply good_snoc; auto|]. exists x, []. split; [done|]. split; [done|constructor]. }
      split; [done|]. exists vs. split; [done|]. split; [done|]. intros Hd Hw. rewrite Hj by done.
      destruct wd; [by rewrite <- app_assoc|done].
    + destruct (bool_decide (Some sep = None ∨ Some sep = Some x)) eqn:Eb.
      2:{ by rewrite andb_false_r in Hl. }
      apply bool_decide_eq_true in Eb as [?|[= <-]]; [done|].
      destruct (3 <=? length ws)%nat; [done|].
      apply IH in Hl as [-> (vs & -> & Hgs & Hj)].
      2:{ apply good_snoc; auto. }
      split; [done|]. exists (cur :: vs). rewrite <- app_assoc. split; [done|]. split; [by constructor|].
      intros Hd Hw. cbn [app] in Hd. apply list.Forall_cons in Hd as [Hd1 Hd2].
      destruct wd; [|by destruct (Hw eq_refl)]. cbn [app].
      assert (joined sep (cur :: vs ++ [c']) = cur ++ sep :: joined sep (vs ++ [c'])) as ->
        by (by destruct vs).
      rewrite Hj; [done|done|]. intros _ Hc. apply list.Forall_app in Hc as [_ Hc].
      by apply list.Forall_cons in Hc as [? _].
Qed.

Lemma date_loop_first s : ∀ cur r, Forall digit cur → cur ≠ [] →
  date_loop false s cur true None [] = Ok r →
  ∃ g, Forall digit g ∧ (s = g ∧ r = ([], cur ++ g, []) ∨
    ∃ c s', s = g ++ c :: s' ∧ ¬ digit c ∧
      date_loop false s' ((cur ++ g) ++ [c]) false (Some c) [cur ++ g] = Ok r).
Proof.
  induction s as [|x s IH]; intros cur r Hc Hn Hl; cbn [date_loop] in Hl.
  - injection Hl as <-. exists []. split; [constructor|]. left. by rewrite app_nil_r.
  - destruct (isDigit x) eqn:Ex.
    + pose proof (proj1 (isDigit_spec x) Ex) as Hx.
      apply IH in Hl as (g & Hg & Hr).
      2:{ apply list.Forall_app; split; [done|]. constructor; [done|constructor]. } 2:{ by destruct cur. }
      exists (x :: g). split; [by constructor|]. rewrite <- app_assoc in Hr. cbn [app] in Hr.
      destruct Hr as [[-> ->]|(c & s' & -> & ? & ?)]; [by left|]. right. by exists c, s'.
    + rewrite bool_decide_eq_true_2 in Hl by auto. cbn in Hl. exists []. split; [constructor|]. right.
      exists x, s. rewrite app_nil_r. split; [done|]. split; [by apply isDigit_false|done].
Qed.

Lemma has_tokens_first g c s k : Forall digit g → ¬ digit c → has_tokens false (take k (g ++ c :: s)) = Ok true →
  date_separator c.
Proof.
  intros Hg Hc. revert k. induction Hg as [|x g Hx _ IH]; intros k Hk; (destruct k; [done|]); cbn [app take has_tokens] in Hk.
  - apply isDigit_false in Hc. rewrite Hc, andb_false_r in Hk. destruct (accepted_token c) eqn:E; [|done].
    unfold accepted_token in E. unfold date_separator. lia.
  - apply isDigit_spec in Hx. rewrite Hx in Hk. by eapply IH.
Qed.

Lemma words_sound s w0 w1 w2 rest : parseDateWords s NEVER false = Ok (w0, w1, w2, rest) →
  ∃ sep, date_separator sep ∧ good_word sep w0 ∧ good_word sep w1 ∧ good_word sep w2 ∧
    (Forall digit w0 → Forall digit w1 → Forall digit w2 → s = w0 ++ [sep] ++ w1 ++ [sep] ++ w2).
Proof.
  unfold parseDateWords. intros H. case_match; [done|].
  destruct (has_tokens false (take 5 s)) as [[]|] eqn:Et; cbn [res_bind] in H; [| |done].
  2:{ by rewrite orb_true_r in H. }
  destruct (starts_with_digit s) eqn:Es; [|done].
  destruct s as [|d s]; [done|]. cbn [starts_with_digit] in Es.
  pose proof (proj1 (isDigit_spec d) Es) as Hd.
  cbn [date_loop] in H. rewrite Es in H.
  destruct (date_loop false s [d] true None []) as [r|] eqn:El; [|done].
  apply date_loop_first in El as (g & Hg & Hr); [|constructor; [done|constructor]|done].
  destruct Hr as [[-> ->]|(c & s' & -> & Hc & El)]; [done|].
  assert (date_separator c) as Hs.
  { eapply (has_tokens_first (d :: g)); [by constructor|exact Hc|exact Et]. }
  destruct r as [[ws' c'] r]. apply date_loop_inv in El as [-> (vs & -> & Hgs & Hj)]; [|done|].
  2:{ exists d, (g ++ [c]). split; [done|]. split; [done|]. apply list.Forall_app; split.
      - eapply list.Forall_impl; [exact Hg|]. by left.
      - constructor; [by right|constructor]. }
  cbn [res_bind app] in H. destruct vs as [|v [|]]; [done| |done].
  destruct c' as [|x c']; [done|]. injection H as <- <- <- <-.
  cbn [app] in Hgs. apply list.Forall_cons in Hgs as [G1 Hgs]. apply list.Forall_cons in Hgs as [G2 _].
  exists c. split; [done|]. split.
  { exists d, g. split; [done|]. split; [done|]. eapply list.Forall_impl; [exact Hg|]. by left. }
  split; [done|]. split; [done|]. intros _ D1 D2.
  cbn [app joined] in *. rewrite <- Hj; [done| |].
  - constructor; [done|]. constructor; [done|constructor].
  - intros _ Hn. apply list.Forall_cons in Hn as [_ Hn].
    apply list.Forall_app in Hn as [_ Hn]. by apply list.Forall_cons in Hn as [? _].
Qed.

Lemma infer_date_sound checks am s d : inferDate checks false am s = Ok d →
  (checks = false → ∀ sep y m, ¬ date_text Iso sep (Ymd y m 0) s) →
  ∃ style sep, month_first style = am ∧ compact style = false ∧ date_separator sep ∧ valid_ymd d ∧
    date_text style sep d s.
Proof.
  intros H Hz. unfold inferDate in H. case_match; [done|].
  destruct (parseDateWords s NEVER false) as [[[[w0 w1] w2] rest]|] eqn:Ep; [|done]. cbn [res_bind] in H.
  apply words_sound in Ep as (sep & Hs & G0 & G1 & G2 & Hj).
  unfold wordsToDate, guessDate in H.
  destruct (zlen w0 =? 4) eqn:E0.
  - destruct (parseInt w0) as [y|] eqn:P0; [|done]. destruct (parseInt w1) as [m|] eqn:P1; [|done].
    destruct (parseInt w2) as [n|] eqn:P2; [|done]. cbn [res_bind] in H. destruct am; [done|].
    cbn [res_bind] in H.
    apply (parseInt_good sep) in P0, P1, P2; [|done..].
    assert (∀ n', n' = n → date_text Iso sep (Ymd y m n') s) as Ht.
    { intros ? ->. exists w0, w1, w2. cbn [yy mm dd]. split; [split; [done|lia]|]. split; [done|]. split; [done|].
      apply Hj; by eapply number_digits. }
    case_match; [done|]. case_match; [done|]. rewrite getDaysInMonth_spec in H by lia. case_match; [done|].
    unfold newPyDate in H. destruct (Z.leb_spec 1 n).
    + injection H as <-. exists Iso, sep. split; [done|]. split; [done|]. split; [done|].
      split; [split; cbn [yy mm dd]; lia|by apply Ht].
    + destruct checks; [done|]. exfalso. eapply (Hz eq_refl), (Ht 0). lia.
  - destruct (zlen w2 =? 4) eqn:E2; [|done].
    destruct (parseInt w2) as [y|] eqn:P2; [|done]. destruct (parseInt w0) as [a|] eqn:P0; [|done].
    destruct (parseInt w1) as [b|] eqn:P1; [|done]. cbn [res_bind] in H.
    apply (parseInt_good sep) in P0, P1, P2; [|done..].
    specialize (Hj ltac:(by eapply number_digits) ltac:(by eapply number_digits) ltac:(by eapply number_digits)).
    assert (∃ m n, (0 < m ∧ 0 < n) ∧ date_text (if am then MonthFirst else DayFirst) sep (Ymd y m n) s ∧
       res_bind (Ok (y, m, n)) (λ '(year, month, day),
    if (year <? 0) || (9999 <? year) then Err ValueError
    else if (month <? 1) || (12 <? month) then Err ValueError
    else if (getDaysInMonth year month <? day) || (day <? 0) then Err ValueError
    else newPyDate checks year month day) = Ok d) as (m & n & Hp & Ht & H').
    { destruct ((a <=? 0) || (b <=? 0) || (12 <? a) && (12 <? b)) eqn:Eb; [done|].
      assert (0 < a ∧ 0 < b) as Hpos by lia.
      destruct am.
      - exists a, b. split; [done|]. split.
        { exists w2, w0, w1. cbn [yy mm dd]. split; [split; [done|lia]|]. done. }
        destruct ((a <=? 12) && (b <=? 12)); [done|]. destruct (a <? 12); [done|]. by destruct (b <? 12).
      - exists b, a. split; [lia|]. split.
        { exists w2, w1, w0. cbn [yy mm dd]. split; [split; [done|lia]|]. done. }
        destruct ((a <=? 12) && (b <=? 12)); [done|]. destruct (a <? 12); [done|]. by destruct (b <? 12). }
    clear H. cbn [res_bind] in H'. case_match; [done|]. case_match; [done|].
    rewrite getDaysInMonth_spec in H' by lia. case_match; [done|].
    unfold newPyDate in H'. rewrite (proj2 (Z.leb_le 1 n)) in H' by lia. injection H' as <-.
    exists (if am then MonthFirst else DayFirst), sep. split; [by destruct am|]. split; [by destruct am|].
    split; [done|]. split; [split; cbn [yy mm dd]; lia|done].
Qed.

(** * Times *)
Definition clock_char (c : Z) : Prop := digit c ∨ c = 58 ∨ c = 46.

Lemma time_comp_two n ds s : number_of 2 n ds → time_comp (ds ++ s) = Ok (n, s).
Proof. intros (a & b & -> & Hp & _)%two_digits. cbn [app time_comp]. by rewrite Hp. Qed.

Lemma two_chars n ds : number_of 2 n ds → Forall clock_char ds ∧ 0 <= n < 100 ∧ length ds = 2%nat.
Proof.
  intros (a & b & -> & _ & Hn & Ha & Hb)%two_digits. split; [|done].
  constructor; [by left|]. constructor; [by left|constructor].
Qed.

Lemma digits_chars n ds : number n ds → Forall clock_char ds.
Proof. intros (_ & H & _). eapply list.Forall_impl; [exact H|]. by left. Qed.

Lemma uint8_small v : 0 <= v < 100 → uint8 v = v.
Proof. intros. unfold uint8. apply Z.mod_small. lia. Qed.

Lemma clock_parse us s : clock us s →
  (∃ h m sec f, parse_hh_mm_ss_ff s = Ok (h, m, sec, f) ∧ us = ((h * 60 + m) * 60 + sec) * 1000000 + f ∧
     0 <= h ∧ 0 <= m ∧ 0 <= sec ∧ 0 <= f) ∧
  Forall clock_char s ∧ 58 ∈ s ∧
  (length s = 5 ∨ length s = 8 ∨ length s = 12 ∨ length s = 15)%nat.
Proof.
  assert (clock_char 58) as C58 by (right; by left). assert (clock_char 46) as C46 by (right; by right).
  intros [h m hs ms Hh Hm|h m s' hs ms ss Hh Hm Hs|h m s' f hs ms ss fs Hh Hm Hs Hf
         |h m s' f hs ms ss fs Hh Hm Hs Hf];
  pose proof (two_chars _ _ Hh) as (Ch & Bh & Lh); pose proof (two_chars _ _ Hm) as (Cm & Bm & Lm);
  try (pose proof (two_chars _ _ Hs) as (Cs & Bs & Ls)).
  - split.
    + exists h, m, 0, 0. split; [|lia]. unfold parse_hh_mm_ss_ff. cbn [time_comps].
      rewrite (time_comp_two h) by done. cbn [res_bind app Z.eqb Pos.eqb].
      rewrite <- (app_nil_r ms), (time_comp_two m) by done. cbn. by rewrite !uint8_small.
    + split; [repeat (apply list.Forall_app; split); try done; by repeat constructor|].
      split; [set_solver|]. rewrite !app_length. cbn [List.length]. lia.
  - split.
    + exists h, m, s', 0. split; [|lia]. unfold parse_hh_mm_ss_ff. cbn [time_comps].
      rewrite (time_comp_two h) by done. cbn [res_bind app Z.eqb Pos.eqb].
      rewrite (time_comp_two m) by done. cbn [res_bind app Z.eqb Pos.eqb].
      rewrite <- (app_nil_r ss), (time_comp_two s') by done. cbn. by rewrite !uint8_small.
    + split; [repeat (apply list.Forall_app; split); try done; by repeat constructor|].
      split; [set_solver|]. rewrite !app_length. cbn [List.length]. lia.
  - pose proof Hf as [Hf' Lf]. pose proof (number_bound _ _ 3 Hf' Lf) as Bf.
    pose proof (digits_chars _ _ Hf') as Cf. split.
    + exists h, m, s', (f * 1000). split; [|lia]. unfold parse_hh_mm_ss_ff. cbn [time_comps].
      rewrite (time_comp_two h) by done. cbn [res_bind app Z.eqb Pos.eqb].
      rewrite (time_comp_two m) by done. cbn [res_bind app Z.eqb Pos.eqb].
      rewrite (time_comp_two s') by done. cbn [res_bind app Z.eqb Pos.eqb res_map time_fraction].
      rewrite Lf. rewrite (parseInt_number f) by (done || lia). cbn [res_map].
      change (Z.of_nat 3 =? 3) with true. change (Z.of_nat 6 =? 3) with false. change (Z.of_nat 6 =? 6) with true.
      cbn [res_map orb].
      cbn [List.nth]. rewrite !uint8_small by done. unfold uint32. rewrite Z.mod_small; [done|].
      change (10 ^ Z.of_nat 3) with 1000 in Bf. change (2 ^ 32) with 4294967296. lia.
    + split; [repeat (apply list.Forall_app; split); try done; by repeat constructor|].
      split; [set_solver|]. rewrite !app_length. cbn [List.length]. lia.
  - pose proof Hf as [Hf' Lf]. pose proof (number_bound _ _ 6 Hf' Lf) as Bf.
    pose proof (digits_chars _ _ Hf') as Cf. split.
    + exists h, m, s', f. split; [|lia]. unfold parse_hh_mm_ss_ff. cbn [time_comps].
      rewrite (time_comp_two h) by done. cbn [res_bind app Z.eqb Pos.eqb].
      rewrite (time_comp_two m) by done. cbn [res_bind app Z.eqb Pos.eqb].
      rewrite (time_comp_two s') by done. cbn [res_bind app Z.eqb Pos.eqb res_map time_fraction].
      rewrite Lf. rewrite (parseInt_number f) by (done || lia). cbn [res_map].
      change (Z.of_nat 3 =? 3) with true. change (Z.of_nat 6 =? 3) with false. change (Z.of_nat 6 =? 6) with true.
      cbn [res_map orb].
      cbn [List.nth]. rewrite !uint8_small by done. unfold uint32. rewrite Z.mod_small; [done|].
      change (10 ^ Z.of_nat 6) with 1000000 in Bf. change (2 ^ 32) with 4294967296. lia.
    + split; [repeat (apply list.Forall_app; split); try done; by repeat constructor|].
      split; [set_solver|]. rewrite !app_length. cbn [List.length]. lia.
Qed.

Lemma split_at_none c l : c ∉ l → split_at c l = None.
Proof.
  induction l as [|x l IH]; intros H; [done|]. apply not_elem_of_cons in H as [H1 H2]. cbn [split_at].
  rewrite (proj2 (Z.eqb_neq x c)) by congruence. by rewrite IH.
Qed.

Lemma clock_no_sign s c : Forall clock_char s → c = 43 ∨ c = 45 → c ∉ s.
Proof.
  intros H Hc Hin. pose proof (proj1 (list.Forall_forall _ _) H c Hin) as Hx.
  unfold clock_char, digit in Hx. lia.
Qed.

Lemma infer_time us t off z : clock us t → zone off z → inferTime (t ++ z) = Ok (us - off).
Proof.
  intros Ht Hz. destruct (clock_parse us t Ht) as ((h & m & s & f & Hp & -> & Hpos) & Hch & H58 & Hl).
  unfold inferTime.
  assert ((zlen (t ++ z) <? 2) = false) as -> by (rewrite app_length; lia).
  rewrite bool_decide_eq_false_2 by set_solver.
  assert (∀ sg us' s', clock us' s' → length s' ≠ 12%nat → sg = 1 ∨ sg = -1 →
    (if (zlen s' =? 5) || (zlen s' =? 8) || (zlen s' =? 15) then
            res_map (λ '(h', mi, sec, us),
                let '(tz_days, tz_seconds, tz_microseconds) :=
                  toTimedelta 0 0 (sg * h') (sg * mi) (sg * sec) 0 (sg * us) in
                newPyTime_tz h m s f tz_days tz_seconds tz_microseconds)
              (parse_hh_mm_ss_ff s')
          else Err OtherError) = Ok (((h * 60 + m) * 60 + s) * 1000000 + f - sg * us')) as Hzone.
  { intros sg us' s' Hc Hn Hsg.
    destruct (clock_parse us' s' Hc) as ((h' & m' & sec' & f' & Hp' & -> & _) & _ & _ & Hl').
    assert ((zlen s' =? 5) || (zlen s' =? 8) || (zlen s' =? 15) = true) as -> by lia.
    rewrite Hp'. cbn [res_map].
    destruct (toTimedelta_spec 0 0 (sg * h') (sg * m') (sg * sec') 0 (sg * f')) as (D & S & U & -> & _ & _ & E).
    unfold newPyTime_tz, newPY_Time. rewrite E. unfold duration_us. f_equal. lia. }
  destruct Hz as [|us' s' Hc Hn|us' s' Hc Hn].
  - unfold split_zone. rewrite app_nil_r, !split_at_none by (apply clock_no_sign; auto).
    cbn [res_bind]. rewrite Hp. cbn [res_bind]. unfold newPY_Time. f_equal. lia.
  - unfold split_zone. pose proof (clock_parse us' s' Hc) as (_ & Hch' & _).
    rewrite (split_at_none 45), split_at_app.
    2:{ apply clock_no_sign; auto. }
    2:{ rewrite elem_of_app, elem_of_cons. intros [H|[H|H]]; [|done|]; by eapply clock_no_sign in H; auto. }
    cbn [res_bind]. rewrite Hp. cbn [res_bind]. rewrite (Hzone 1 us' s') by auto. do 2 f_equal; lia.
  - unfold split_zone. pose proof (clock_parse us' s' Hc) as (_ & Hch' & _).
    rewrite (split_at_none 43), split_at_app.
    2:{ apply clock_no_sign; auto. }
    2:{ rewrite elem_of_app, elem_of_cons. intros [H|[H|H]]; [|done|]; by eapply clock_no_sign in H; auto. }
    cbn [res_bind]. rewrite Hp. cbn [res_bind]. rewrite (Hzone (-1) us' s') by auto. f_equal; lia.
Qed.

Lemma infer_compact us s : compact_clock us s → inferTime s = Ok us.
Proof.
  intros H. unfold inferTime.
  destruct H as [h hs Hh|h m hs ms Hh Hm|h m s hs ms ss Hh Hm Hs];
  try (apply two_digits in Hh as (a & b & -> & Ph & Bh & Da & Db));
  try (apply two_digits in Hm as (a' & b' & -> & Pm & Bm & Da' & Db'));
  try (apply two_digits in Hs as (a'' & b'' & -> & Ps & Bs & Da'' & Db'')); unfold digit in *;
  rewrite bool_decide_eq_true_2 by (rewrite ?not_elem_of_app, ?not_elem_of_cons; repeat split; lia || apply not_elem_of_nil);
  unfold infer_compact_time; cbn [app List.length]; 
  repeat match goal with |- context [Z.of_nat ?n] =>
    let v := eval vm_compute in (Z.of_nat n) in change (Z.of_nat n) with v end;
  cbn [Z.ltb Z.leb Z.eqb Pos.eqb Z.compare Pos.compare Pos.compare_cont orb take drop];
  rewrite ?Ph; cbn [res_bind res_map]; rewrite ?Pm; cbn [res_bind res_map]; rewrite ?Ps; cbn [res_bind res_map];
  unfold newPY_Time; rewrite ?uint8_small by lia; f_equal; lia.
Qed.

Lemma infer_time_text us s : time_text us s → inferTime s = Ok us.
Proof.
  intros [(l & t & off & z & Ht & Hz & -> & ->)|H]; [by apply infer_time|by apply infer_compact].
Qed.

Lemma time_shape us s : time_text us s →
  Forall (λ c, 0 <= c <= 127) s ∧ 2 <= zlen s <= 31 ∧ ∃ c r, s = c :: r ∧ digit c.
Proof.
  assert (∀ l, Forall clock_char l → Forall (λ c, 0 <= c <= 127) l) as Ha.
  { intros l H. eapply list.Forall_impl; [exact H|]. unfold clock_char, digit. lia. }
  intros [(l & t & off & z & Ht & Hz & -> & ->)|H].
  - pose proof (clock_parse _ _ Ht) as (_ & Hc & _ & Hl).
    assert (Forall (λ c, 0 <= c <= 127) z ∧ zlen z <= 16) as [Hz' Lz].
    { destruct Hz as [|us' s' Hc' Hn|us' s' Hc' Hn]; [split; [constructor|simpl; lia]| |];
      pose proof (clock_parse _ _ Hc') as (_ & Hc'' & _ & Hl'); (split; [constructor; [lia|auto]|cbn [List.length]; lia]). }
    split; [apply list.Forall_app; auto|]. split; [rewrite app_length; lia|].
    destruct Ht as [h m hs ms Hh|h m s' hs ms ss Hh|h m s' f hs ms ss fs Hh|h m s' f hs ms ss fs Hh];
    apply two_digits in Hh as (a & b & -> & _ & _ & Da & _); by eexists a, _.
  - assert (Forall digit s ∧ (length s = 2 ∨ length s = 4 ∨ length s = 6)%nat) as [Hd Hl].
    { destruct H as [h hs [(_ & ? & _) ?]|h m hs ms [(_ & ? & _) ?] [(_ & ? & _) ?]
        |h m s hs ms ss [(_ & ? & _) ?] [(_ & ? & _) ?] [(_ & ? & _) ?]];
      rewrite ?Forall_app, ?app_length; (split; [auto|lia]). }
    split; [by apply digit_ascii|]. split; [lia|]. destruct s as [|c r]; [simpl in Hl; lia|].
    exists c, r. split; [done|]. by apply list.Forall_cons in Hd as [? _].
Qed.

(** * Dates with times *)
Lemma moment_spec d us : moment d us (newPyDateTime d us).1 (newPyDateTime d us).2.
Proof.
  unfold newPyDateTime, moment. cbn [fst snd].
  destruct (epoch_of_days ((epoch_days d * us_per_day + us) / us_per_day)) as [Hv He].
  split; [done|]. split; [apply Z.mod_pos_bound; done|]. rewrite He.
  pose proof (Z.div_mod (epoch_days d * us_per_day + us) us_per_day). unfold us_per_day in *. lia.
Qed.

Lemma datetime_words style sep d us s : datetime_text style sep d us s → date_separator sep → valid_ymd d →
  ¬ late_december style d →
  ∃ w0 w1 w2 c rest t, parseDateWords s DONT_CARE true = Ok (w0, w1, w2, c :: rest) ∧
    10 <= runeLen s <= 42 ∧ inferTime t = Ok us ∧
    (isDigit c = true ∧ t = c :: rest ∨ isDigit c = false ∧ (c = 32 ∨ c = 84) ∧ t = rest) ∧
    0 <= yy d <= 9999 ∧ guessDate w0 w1 w2 (month_first style) = Ok (yy d, mm d, dd d) ∧
    (style = MonthFirst → 12 < dd d → guessDate w0 w1 w2 false = Err ValueError).
Proof.
  intros (date & mark & t & Hd & Ld & Ht & -> & Hm & Hms) Hs Hv Hl.
  pose proof (infer_time_text _ _ Ht) as Hit. pose proof (time_shape _ _ Ht) as (At & Lt & (c0 & r0 & Et & Dc)).
  assert (Forall (λ c, 0 <= c <= 127) mark ∧ (length mark <= 1)%nat) as [Am Lm].
  { destruct Hm as [-> |[-> |[-> _]]]; split; try (simpl; lia); repeat constructor; lia. }
  destruct (decide (style = Compact)) as [->|Hc].
  - destruct Hd as (y & m & n & [Hy Ly] & Hmm & Hn & Lmm & Ln & ->).
    pose proof (number_digits _ _ Hy) as [Dy _].
    pose proof (number_digits _ _ Hmm) as [Dm _]. pose proof (number_digits _ _ Hn) as [Dn _].
    pose proof (number_bound _ _ 4 Hy Ly) as By. change (10 ^ Z.of_nat 4) with 10000 in By.
    assert (Forall digit (y ++ m ++ n)) as Hdig by (repeat (apply list.Forall_app; split); done).
    assert (length (y ++ m ++ n) = 8%nat) as L8 by (rewrite !app_length; lia).
    assert (Forall (λ c, 0 <= c <= 127) ((y ++ m ++ n) ++ mark ++ t)) as Ha.
    { repeat (apply list.Forall_app; split); try done; by apply digit_ascii. }
    assert (parseDateWords ((y ++ m ++ n) ++ mark ++ t) DONT_CARE true = Ok (y, m, n, mark ++ t)) as Hp.
    { unfold parseDateWords. rewrite runeLen_ascii, Z.eqb_refl by done. cbn [negb].
      rewrite take_app_le by lia. rewrite has_tokens_digits by by apply Forall_take. cbn [res_bind].
      assert ((zlen ((y ++ m ++ n) ++ mark ++ t) <? 8) = false) as -> by (rewrite app_length; lia).
      cbn [orb]. rewrite (drop_app_alt (y ++ m ++ n) (mark ++ t) 8) by done. rewrite <- !app_assoc.
      rewrite take_app_alt by done. rewrite drop_app_alt by done. rewrite take_app_alt by done.
      replace (drop 6 (y ++ m ++ n ++ mark ++ t)) with (n ++ mark ++ t).
      2:{ rewrite (app_assoc y m). rewrite drop_app_alt; [done|]. rewrite app_length. lia. }
      by rewrite take_app_alt by done. }
    assert (∃ c rest, mark ++ t = c :: rest ∧
      (isDigit c = true ∧ t = c :: rest ∨ isDigit c = false ∧ (c = 32 ∨ c = 84) ∧ t = rest)) as (c & rest & Ec & Hc).
    { destruct Hm as [-> |[-> |[-> _]]].
      - exists 32, t. split; [done|]. right. auto.
      - exists 84, t. split; [done|]. right. auto.
      - exists c0, r0. split; [done|]. left. split; [by apply isDigit_spec|done]. }
    exists y, m, n, c, rest, t. split; [by rewrite <- Ec|].
    split; [rewrite runeLen_ascii by done; rewrite app_length, L8, app_length; lia|].
    split; [done|]. split; [done|]. split; [lia|]. split; [by apply guess_iso; try lia|intros; discriminate].
  - destruct (text_words style sep d date) as (w0 & w1 & w2 & -> & D0 & D1 & D2 & N0 & N1 & N2 & L0 & L8 & By & Hg);
      [done..|].
    assert (∃ c, mark = [c] ∧ (c = 32 ∨ c = 84) ∧ c ≠ sep) as (c & -> & Hc' & Hcs).
    { destruct Hm as [-> |[-> |[-> ?]]]; [exists 32|exists 84|done]; (split; [done|]; split; [auto|]);
      intros <-; by apply Hc, Hms. }
    destruct (parse_three w0 w1 w2 sep DONT_CARE true) with (mark := c) (t := t) as [_ Hp]; try done.
    { by constructor; [lia|]. }
    exists w0, w1, w2, c, t, t. split; [exact Hp|].
    split.
    { rewrite runeLen_ascii.
      - rewrite (app_length _ ([c] ++ t)). change (length ([c] ++ t)) with (S (length t)). lia.
      - apply list.Forall_app; split; [by apply ascii_three|]. by constructor; [lia|]. }
    split; [done|]. split; [right; split; [unfold isDigit; lia|done]|]. split; [done|]. split; [done|].
    intros -> H12. cbn [month_first] in Hg.
    destruct Hd as (y & m & n & Hy & Hmm & Hn & E).
    unfold guessDate in Hg |- *. destruct (zlen w0 =? 4).
    { by destruct (parseInt w0), (parseInt w1), (parseInt w2). }
    destruct (zlen w2 =? 4); [|done]. destruct (parseInt w2) as [yv|]; [|done]. destruct (parseInt w0) as [a|]; [|done].
    destruct (parseInt w1) as [b|]; [|done]. cbn [res_bind] in Hg |- *.
    destruct ((a <=? 0) || (b <=? 0) || (12 <? a) && (12 <? b)); [done|].
    destruct ((a <=? 12) && (b <=? 12)) eqn:E12; [injection Hg as ? ? ?; lia|].
    destruct (a <? 12); [done|]. destruct (b <? 12); done.
Qed.

Lemma infer_datetime checks style sep d us s : datetime_text style sep d us s → date_separator sep → valid_ymd d →
  ¬ late_december style d →
  ∃ d' us', moment d us d' us' ∧ inferDatetime checks (month_first style) s = Ok (d', us') ∧
    (style = MonthFirst → 12 < dd d → inferDatetime checks false s = Err ValueError).
Proof.
  intros Ht Hs Hv Hl.
  destruct (datetime_words style sep d us s) as (w0 & w1 & w2 & c & rest & t & Hp & Hr & Hi & Hc & Hy & Hg & Hf);
    [done..|].
  exists (newPyDateTime d us).1, (newPyDateTime d us).2. split; [apply moment_spec|].
  assert (∀ am, inferDatetime checks am s =
     res_bind (wordsToDate checks w0 w1 w2 am) (λ date, res_map (newPyDateTime date) (inferTime t))) as E.
  { intros am. unfold inferDatetime.
    assert ((42 <? runeLen s) || (runeLen s <? 10) = false) as -> by lia. rewrite Hp. cbn [res_bind].
    destruct Hc as [[Hc ->]|[Hc [Hc' ->]]]; rewrite Hc; cbn [orb]; [done|].
    assert (((c =? 32) || (c =? 84)) = true) as -> by lia. done. }
  rewrite !E. split.
  - destruct d as [Y M D]. rewrite (words_date checks (month_first style) w0 w1 w2 Y M D) by done. cbn [res_bind].
    rewrite Hi. cbn [res_map]. by destruct (newPyDateTime _ _).
  - intros Hst H12. unfold wordsToDate. by rewrite (Hf Hst H12).
Qed.

(** * Errors of times *)
Lemma parseInt_err s e : parseInt s = Err e → e = ValueError.
Proof.
  assert (∀ ds v, parse_digits v ds = Err e → e = ValueError) as Hd.
  { induction ds as [|d ds IH]; intros v H; [done|]. cbn [parse_digits] in H.
    destruct (isDigit d); [by eapply IH|]. destruct (d =? 95); [by eapply IH|]. by injection H as <-. }
  assert (∀ ds, parse_uint ds = Err e → e = ValueError) as Hu.
  { intros [|d ds] H; unfold parse_uint in H; [by injection H as <-|].
    destruct (isDigit d); [by eapply Hd|by injection H as <-]. }
  unfold parseInt. intros H.
  match type of H with res_bind ?a _ = _ => destruct a as [n|e'] eqn:E end; cbn [res_bind] in H.
  - case_match; [done|by injection H as <-].
  - injection H as <-. destruct s as [|d ds]; [by injection E as <-|].
    destruct (d =? 45).
    { destruct (parse_uint ds) eqn:E2; [done|]. injection E as <-. by eapply Hu. }
    destruct (d =? 43); by eapply Hu.
Qed.

Lemma time_comps_err n : ∀ s e, time_comps n s = Err e → e = ValueError.
Proof.
  assert (∀ s e, time_comp s = Err e → e = ValueError) as Hc.
  { intros [|a [|b r]] e H; cbn in H; [by injection H as <-..|].
    destruct (parseInt [a; b]) eqn:E; [done|]. injection H as <-. by eapply parseInt_err. }
  induction n as [|n IH]; intros s e H; cbn [time_comps] in H;
    (destruct (time_comp s) as [[v r]|e'] eqn:E; cbn [res_bind] in H; [|injection H as <-; by eapply Hc]).
  - by destruct r.
  - destruct r as [|x r]; [done|]. destruct (x =? 58); [|by injection H as <-].
    destruct (time_comps n r) as [[]|] eqn:E2; [done|]. injection H as <-. by eapply IH.
Qed.

Lemma hh_mm_err s e : parse_hh_mm_ss_ff s = Err e → e = ValueError.
Proof.
  unfold parse_hh_mm_ss_ff. intros H.
  destruct (time_comps 2 s) as [[vs r]|] eqn:E; cbn [res_bind] in H; [|injection H as <-; by eapply time_comps_err].
  unfold time_fraction in H. destruct r as [|c f]; [done|]. destruct (c =? 46); [|by injection H as <-].
  destruct ((zlen f =? 3) || (zlen f =? 6)); [|by injection H as <-].
  destruct (parseInt f) eqn:Ep; [done|]. injection H as <-. by eapply parseInt_err.
Qed.

Lemma split_at_inv c l a b : split_at c l = Some (a, b) → l = a ++ c :: b.
Proof.
  revert a b. induction l as [|x l IH]; intros a b H; [done|]. cbn [split_at] in H.
  destruct (Z.eqb_spec x c) as [->|]; [by injection H as <- <-|].
  destruct (split_at c l) as [[a' b']|] eqn:E; [|done]. injection H as <- <-. by rewrite (IH a' b').
Qed.

Lemma infer_time_err s e : inferTime s = Err e →
  e = ValueError ∨ e = OtherError ∧ ∃ t sign z, s = t ++ sign :: z ∧ (sign = 43 ∨ sign = 45) ∧
    length z ≠ 5%nat ∧ length z ≠ 8%nat ∧ length z ≠ 15%nat.
Proof.
  unfold inferTime. intros H. case_match; [left; by injection H as <-|].
  case_match.
  { left. unfold infer_compact_time in H. case_match; [|by injection H as <-].
    destruct (parseInt (take 2 s)) as [|] eqn:E1; cbn [res_bind] in H; [|injection H as <-; by eapply parseInt_err].
    destruct (if 4 <=? zlen s then parseInt (take 2 (drop 2 s)) else Ok 0) as [|] eqn:E2; cbn [res_bind] in H.
    2:{ injection H as <-. destruct (4 <=? zlen s); [by eapply parseInt_err|done]. }
    destruct (if 6 <=? zlen s then parseInt (take 2 (drop 4 s)) else Ok 0) as [|] eqn:E3; [done|].
    injection H as <-. destruct (6 <=? zlen s); [by eapply parseInt_err|done]. }
  assert (∀ t tz, res_bind (parse_hh_mm_ss_ff t) (λ '(hour, minute, second, microsecond),
      match tz with
      | None => Ok (newPY_Time hour minute second microsecond)
      | Some (tz_sign, tzstr) =>
          if (zlen tzstr =? 5) || (zlen tzstr =? 8) || (zlen tzstr =? 15) then
            res_map (λ '(h, mi, sec, us),
                let '(tz_days, tz_seconds, tz_microseconds) :=
                  toTimedelta 0 0 (tz_sign * h) (tz_sign * mi) (tz_sign * sec) 0 (tz_sign * us) in
                newPyTime_tz hour minute second microsecond tz_days tz_seconds tz_microseconds)
              (parse_hh_mm_ss_ff tzstr)
          else Err OtherError
      end) = Err e → e = ValueError ∨ e = OtherError ∧ ∃ sg z, tz = Some (sg, z) ∧
         length z ≠ 5%nat ∧ length z ≠ 8%nat ∧ length z ≠ 15%nat) as Hz.
  { intros t tz Hb. destruct (parse_hh_mm_ss_ff t) as [[[[h m] sec] us]|] eqn:E; cbn [res_bind] in Hb.
    2:{ left. injection Hb as <-. by eapply hh_mm_err. }
    destruct tz as [[sg z]|]; [|done].
    destruct ((zlen z =? 5) || (zlen z =? 8) || (zlen z =? 15)) eqn:El.
    - left. destruct (parse_hh_mm_ss_ff z) as [[[[h' m'] sec'] us']|] eqn:Ez; cbn [res_map] in Hb.
      + by destruct (toTimedelta _ _ _ _ _ _ _) as [[] ?].
      + injection Hb as <-. by eapply hh_mm_err.
    - injection Hb as <-. right. split; [done|]. exists sg, z. split; [done|]. lia. }
  unfold split_zone in H.
  destruct (split_at 45 s) as [[t z]|] eqn:E45, (split_at 43 s) as [[t' z']|] eqn:E43; cbn [res_bind] in H.
  - left. by injection H as <-.
  - apply (Hz t (Some (-1, z))) in H as [?|(-> & sg & z0 & [= <- <-] & Hl)]; [by left|]. right. split; [done|].
    apply split_at_inv in E45. exists t, 45, z. auto.
  - apply (Hz t' (Some (1, z'))) in H as [?|(-> & sg & z0 & [= <- <-] & Hl)]; [by left|]. right. split; [done|].
    apply split_at_inv in E43. exists t', 43, z'. auto.
  - apply (Hz s None) in H as [?|(-> & sg & z0 & [=] & Hl)]. by left.
Qed.

(** * Whole numbers *)
Lemma wrapped_unique n v w : wrapped n v → wrapped n w → v = w.
Proof. intros [Hv [a Ha]] [Hw [b Hb]]. lia. Qed.

Lemma wrapped_trans n v w : wrapped n v → wrapped v w ↔ wrapped n w.
Proof.
  intros [_ [a Ha]]. unfold wrapped. split; intros [H [b Hb]]; (split; [done|]).
  - exists (a + b). lia.
  - exists (b - a). lia.
Qed.

Lemma wrapped_affine n v m d : wrapped n v → ∀ w, wrapped (v * m + d) w ↔ wrapped (n * m + d) w.
Proof.
  intros [_ [a Ha]] w. unfold wrapped. split; intros [H [b Hb]]; (split; [done|]).
  - exists (a * m + b). nia.
  - exists (b - a * m). nia.
Qed.

Lemma wrap64_spec n : wrapped n (wrap64 n).
Proof.
  unfold wrapped, wrap64. pose proof (Z.mod_pos_bound (n + 2 ^ 63) (2 ^ 64)).
  pose proof (Z.div_mod (n + 2 ^ 63) (2 ^ 64)). split; [lia|].
  exists ((n + 2 ^ 63) / 2 ^ 64). lia.
Qed.

Lemma int_spec checks n w : int_ checks n = Ok w ↔ wrapped n w ∧ (checks = true → - 2 ^ 63 <= n < 2 ^ 63).
Proof.
  unfold int_. destruct ((- 2 ^ 63 <=? n) && (n <? 2 ^ 63)) eqn:E.
  - assert (wrapped n n) as Hn by (split; [lia|exists 0; lia]). split.
    + intros [= <-]. split; [done|lia].
    + intros [Hw _]. f_equal. by eapply wrapped_unique.
  - destruct checks; [split; [done|intros [_ H]; specialize (H eq_refl); lia]|].
    pose proof (wrap64_spec n) as Hn. split.
    + intros [= <-]. done.
    + intros [Hw _]. f_equal. by eapply wrapped_unique.
Qed.

Definition thousands (am : bool) : Z := if am then 44 else 46.

Lemma groups_nil sep ds : groups sep [] ds → ds = [].
Proof. by inversion 1. Qed.

Lemma groups_digits sep s ds : groups sep s ds → Forall digit ds.
Proof. induction 1; [constructor|]. by apply list.Forall_app. Qed.

Lemma int_loop_spec checks am s : ∀ V v after w, 0 <= V → wrapped V v → (checks = true → V < 2 ^ 63) →
  int_loop checks am s v after = Ok w ↔
  ∃ g rest ds, s = g ++ rest ∧ Forall digit g ∧ groups (thousands am) rest ds ∧
    (∀ k, after = Some k → k + zlen g = 3) ∧
    wrapped (V * 10 ^ zlen (g ++ ds) + digits_value (g ++ ds)) w ∧
    (checks = true → V * 10 ^ zlen (g ++ ds) + digits_value (g ++ ds) < 2 ^ 63).
Proof.
  induction s as [|ch s IH]; intros V v after w HV Hv Hc; cbn [int_loop].
  - split.
    + destruct (bad_group after) eqn:Eb; [done|]. intros [= <-]. exists [], [], [].
      split; [done|]. split; [constructor|]. split; [constructor|]. split.
      { intros k ->. cbn [bad_group] in Eb. cbn [List.length]. lia. }
      cbn [app List.length]. change (digits_value []) with 0. change (10 ^ Z.of_nat 0) with 1.
      rewrite Z.mul_1_r, Z.add_0_r. done.
    + intros (g & rest & ds & E & Hg & Hgr & Ha & Hw & _). symmetry in E. apply app_nil in E as [-> ->].
      apply groups_nil in Hgr as ->. cbn [app List.length] in Hw.
      change (digits_value []) with 0 in Hw. change (10 ^ Z.of_nat 0) with 1 in Hw.
      rewrite Z.mul_1_r, Z.add_0_r in Hw.
      assert (bad_group after = false) as ->.
      { destruct after as [k|]; [|done]. specialize (Ha k eq_refl). cbn [List.length] in Ha. cbn [bad_group]. lia. }
      f_equal. by eapply wrapped_unique.
  - destruct (isDigit ch) eqn:Ed.
    + pose proof (proj1 (isDigit_spec ch) Ed) as Hd. split.
      * intros H. destruct (int_ checks (v * 10 + (ch - 48))) as [v'|] eqn:Ei; cbn [res_bind] in H; [|done].
        apply int_spec in Ei as [Hv' Hr]. apply (wrapped_affine V v) in Hv'; [|done].
        apply (IH (V * 10 + (ch - 48))) in H; [|unfold digit in Hd; lia|done|].
        2:{ intros Hch. specialize (Hr Hch). specialize (Hc Hch).
            destruct Hv as [Hv1 [a Ha]]. assert (v = V) by (unfold digit in Hd; lia). subst v. lia. }
        destruct H as (g & rest & ds & -> & Hg & Hgr & Ha & Hw & Hlt).
        exists (ch :: g), rest, ds. split; [done|]. split; [by constructor|]. split; [done|]. split.
        { intros k ->. specialize (Ha (Z.succ k) eq_refl). cbn [List.length]. lia. }
        cbn [app]. rewrite digits_cons. cbn [List.length].
        rewrite Nat2Z.inj_succ, Z.pow_succ_r by lia.
        replace (V * (10 * 10 ^ zlen (g ++ ds)) + ((ch - 48) * 10 ^ zlen (g ++ ds) + digits_value (g ++ ds)))
          with ((V * 10 + (ch - 48)) * 10 ^ zlen (g ++ ds) + digits_value (g ++ ds)) by lia.
        done.
      * intros (g & rest & ds & E & Hg & Hgr & Ha & Hw & Hlt).
        destruct g as [|x g].
        { cbn [app] in E. subst rest. inversion Hgr; subst.
          exfalso. unfold thousands, digit in *. destruct am; lia. }
        cbn [app] in E. injection E as <- ->. apply list.Forall_cons in Hg as [_ Hg].
        cbn [app] in Hw, Hlt. rewrite digits_cons in Hw, Hlt. cbn [List.length] in Hw, Hlt.
        rewrite Nat2Z.inj_succ, Z.pow_succ_r in Hw, Hlt by lia.
        replace (V * (10 * 10 ^ zlen (g ++ ds)) + ((ch - 48) * 10 ^ zlen (g ++ ds) + digits_value (g ++ ds)))
          with ((V * 10 + (ch - 48)) * 10 ^ zlen (g ++ ds) + digits_value (g ++ ds)) in Hw, Hlt by lia.
        assert (0 <= digits_value (g ++ ds)) as Hnn.
        { apply digits_bound. apply list.Forall_app; split; [done|by eapply groups_digits]. }
        assert (1 <= 10 ^ zlen (g ++ ds)) as Hp by (apply (Z.pow_le_mono_r 10 0); lia).
        assert (checks = true → V * 10 + (ch - 48) < 2 ^ 63) as Hlt'.
        { intros Hch. specialize (Hlt Hch). unfold digit in Hd. nia. }
        destruct (int_ checks (v * 10 + (ch - 48))) as [v'|] eqn:Ei; cbn [res_bind].
        -- apply int_spec in Ei as [Hv' Hr]. apply (wrapped_affine V v) in Hv'; [|done].
           apply (IH (V * 10 + (ch - 48))); [unfold digit in Hd; lia|done|done|].
           exists g, rest, ds. split; [done|]. split; [done|]. split; [done|]. split; [|done].
           intros k Hk. destruct after as [k'|]; [|done]. cbn in Hk. injection Hk as <-.
           specialize (Ha k' eq_refl). cbn [List.length] in Ha. lia.
        -- exfalso. unfold int_ in Ei. case_match; [done|]. destruct checks; [|done].
           specialize (Hc eq_refl). specialize (Hlt' eq_refl). destruct Hv as [Hv1 [a Ha']].
           assert (v = V) by lia. subst v. unfold digit in Hd. lia.
    + assert ((ch =? 44) && am || (ch =? 46) && negb am = (ch =? thousands am)) as ->.
      { unfold thousands. destruct am; lia. }
      assert (∀ g rest, ch :: s = g ++ rest → Forall digit g → g = [] ∧ rest = ch :: s) as Hnog.
      { intros [|x g] rest E Hg; [done|]. injection E as <- ->. apply list.Forall_cons in Hg as [Hg _].
        apply isDigit_spec in Hg. congruence. }
      destruct (Z.eqb_spec ch (thousands am)) as [->|Hne].
      2:{ split; [done|]. intros (g & rest & ds & E & Hg & Hgr & _). apply Hnog in E as [-> ->]; [|done].
          by inversion Hgr. }
      split.
      * destruct (_ || _) eqn:Eb; [done|]. intros H. apply (IH V) in H; [|done..].
        destruct H as (g & rest & ds & -> & Hg & Hgr & Ha & Hw & Hlt).
        specialize (Ha 0 eq_refl).
        exists [], (thousands am :: g ++ rest), (g ++ ds). split; [done|]. split; [constructor|].
        split; [constructor; [done|lia|done]|]. split; [|done].
        intros k ->. cbn [bad_group] in Eb. cbn [List.length]. lia.
      * intros (g & rest & ds & E & Hg & Hgr & Ha & Hw & Hlt). apply Hnog in E as [-> ->]; [|done].
        inversion Hgr as [|g s' ds' Hg' Lg Hgr' E1 E2]; subst.
        assert ((zlen (thousands am :: g ++ s') <? 4) || bad_group after = false) as ->.
        { apply orb_false_iff. split.
          - cbn [List.length]. rewrite app_length. lia.
          - destruct after as [k|]; [|done]. specialize (Ha k eq_refl). cbn [List.length] in Ha.
            cbn [bad_group]. lia. }
        apply (IH V); [done..|]. exists g, s', ds'. split; [done|]. split; [done|]. split; [done|].
        split; [|done]. intros k [= <-]. lia.
Qed.

Lemma infer_int checks am s v : inferInt checks false am s = Ok v ↔
  ∃ n, int_text (if am then 44 else 46) n (no_blanks s) ∧ wrapped n v ∧ (checks = true → - 2 ^ 63 < n < 2 ^ 63).
Proof.
  unfold inferInt. change (if am then 44 else 46) with (thousands am). generalize (no_blanks s). clear s. intros s.
  assert (¬ digit (thousands am)) as Htd by (unfold thousands, digit; destruct am; lia).
  (* the digits of a number after the sign *)
  assert (∀ c rest w, digit c → int_loop checks am rest (c - 48) None = Ok w ↔
    ∃ g r ds, g ≠ [] ∧ Forall digit g ∧ groups (thousands am) r ds ∧ c :: rest = g ++ r ∧
      wrapped (digits_value (g ++ ds)) w ∧ (checks = true → digits_value (g ++ ds) < 2 ^ 63)) as Hmain.
  { intros c rest w Hc.
    assert (0 <= c - 48 ∧ wrapped (c - 48) (c - 48) ∧ (checks = true → c - 48 < 2 ^ 63)) as (H1 & H2 & H3).
    { unfold digit in Hc. split; [lia|]. split; [split; [lia|exists 0; lia]|lia]. }
    rewrite (int_loop_spec checks am rest (c - 48)) by done. split.
    - intros (g & r & ds & -> & Hg & Hgr & _ & Hw & Hlt). exists (c :: g), r, ds.
      split; [done|]. split; [by constructor|]. split; [done|]. split; [done|].
      cbn [app]. by rewrite digits_cons.
    - intros (g & r & ds & Hne & Hg & Hgr & E & Hw & Hlt). destruct g as [|x g]; [done|].
      cbn [app] in E. injection E as <- ->. apply list.Forall_cons in Hg as [_ Hg].
      exists g, r, ds. split; [done|]. split; [done|]. split; [done|]. split; [done|].
      cbn [app] in Hw, Hlt. rewrite digits_cons in Hw, Hlt. done. }
  assert (∀ g ds r, Forall digit g → groups (thousands am) r ds → 0 <= digits_value (g ++ ds)) as Hnn.
  { intros g ds r Hg Hgr. apply digits_bound, list.Forall_app. split; [done|by eapply groups_digits]. }
  assert (∀ g r, g ≠ [] → Forall digit g → ∃ c t, g ++ r = c :: t ∧ digit c) as Hhead.
  { intros [|c g] r Hne Hg; [done|]. exists c, (g ++ r). split; [done|]. by apply list.Forall_cons in Hg as [? _]. }
  destruct s as [|c s].
  { split; [done|]. intros (n & (sign & g & r & ds & Hne & Hg & _ & E & _) & _).
    destruct (Hhead g r Hne Hg) as (x & t & E' & _). rewrite E' in E. by destruct sign. }
  destruct (isDigit c) eqn:Ec.
  - pose proof (proj1 (isDigit_spec c) Ec) as Hc. rewrite Hmain by done. split.
    + intros (g & r & ds & Hne & Hg & Hgr & E & Hw & Hlt). exists (digits_value (g ++ ds)).
      split; [|split; [done|]].
      * exists [], g, r, ds. split; [done|]. split; [done|]. split; [done|]. split; [done|]. left. auto.
      * intros Hch. specialize (Hlt Hch). pose proof (Hnn g ds r Hg Hgr). lia.
    + intros (n & (sign & g & r & ds & Hne & Hg & Hgr & E & Hs) & Hw & Hlt).
      assert (sign = []) as ->.
      { destruct Hs as [[[Hs|Hs] _]|[Hs _]]; subst sign; [done|..]; cbn [app] in E; injection E as -> _;
        unfold digit in Hc; lia. }
      destruct Hs as [[_ ->]|[? _]]; [|done]. exists g, r, ds. split; [done|]. split; [done|]. split; [done|].
      split; [done|]. split; [done|]. intros Hch. apply Hlt in Hch. lia.
  - assert (∀ sign g r, g ≠ [] → Forall digit g → c :: s = sign ++ g ++ r →
      (sign = [] ∨ sign = [43]) ∨ sign = [45] → s = g ++ r ∧ sign = [c] ∧ (c = 43 ∨ c = 45)) as Hsign.
    { intros sign g r Hne Hg E Hs. destruct (Hhead g r Hne Hg) as (x & t & E' & Hx).
      destruct Hs as [[->| ->]| ->]; cbn [app] in E.
      - rewrite E' in E. injection E as -> _. apply isDigit_spec in Hx. congruence.
      - injection E as -> ->. auto.
      - injection E as -> ->. auto. }
    destruct ((c =? 43) || (c =? 45)) eqn:Esg.
    2:{ split; [done|]. intros (n & (sign & g & r & ds & Hne & Hg & Hgr & E & Hs) & _).
        apply Hsign in E as (_ & _ & ?); [lia|done|done|tauto]. }
    destruct s as [|d s].
    { split; [by destruct checks|]. intros (n & (sign & g & r & ds & Hne & Hg & Hgr & E & Hs) & _).
      apply Hsign in E as (E & _); [|done|done|tauto]. destruct (Hhead g r Hne Hg) as (x & t & E' & _).
      by rewrite E' in E. }
    destruct (isDigit d) eqn:Edg.
    2:{ split; [done|]. intros (n & (sign & g & r & ds & Hne & Hg & Hgr & E & Hs) & _).
        apply Hsign in E as (E & _); [|done|done|tauto]. destruct (Hhead g r Hne Hg) as (x & t & E' & Hx).
        rewrite E' in E. injection E as -> _. apply isDigit_spec in Hx. congruence. }
    pose proof (proj1 (isDigit_spec d) Edg) as Hd.
    set (k := if c =? 43 then 1 else -1).
    assert (k = 1 ∧ c = 43 ∨ k = -1 ∧ c = 45) as Hk by (unfold k; destruct (Z.eqb_spec c 43); lia).
    clearbody k. split.
    + intros H. destruct (int_loop checks am s (d - 48) None) as [w|] eqn:El; [|done]. cbn [res_bind] in H.
      apply Hmain in El as (g & r & ds & Hne & Hg & Hgr & E & Hw & Hlt); [|done].
      apply int_spec in H as [H Hr]. rewrite <- (Z.add_0_r (w * k)) in H. apply (wrapped_affine _ _ k 0 Hw) in H.
      rewrite Z.add_0_r in H. pose proof (Hnn g ds r Hg Hgr) as Hp.
      exists (digits_value (g ++ ds) * k). split; [|split; [done|]].
      * exists [c], g, r, ds. split; [done|]. split; [done|]. split; [done|]. rewrite E. split; [done|].
        destruct Hk as [[-> ->]|[-> ->]]; [left; split; [by right|lia]|right; split; [done|lia]].
      * intros Hch. specialize (Hlt Hch). destruct Hk as [[-> _]|[-> _]]; lia.
    + intros (n & (sign & g & r & ds & Hne & Hg & Hgr & E & Hs) & Hw & Hlt).
      apply Hsign in E as (E & -> & _); [|done|done|tauto].
      pose proof (Hnn g ds r Hg Hgr) as Hp.
      assert (n = digits_value (g ++ ds) * k) as ->.
      { destruct Hk as [[-> ->]|[-> ->]], Hs as [[[Hs|Hs] ->]|[Hs ->]]; try done; lia. }
      assert (int_loop checks am s (d - 48) None = Ok (wrap64 (digits_value (g ++ ds)))) as ->.
      { apply Hmain; [done|]. exists g, r, ds. split; [done|]. split; [done|]. split; [done|]. split; [done|].
        split; [apply wrap64_spec|]. intros Hch. apply Hlt in Hch. destruct Hk as [[-> _]|[-> _]]; lia. }
      cbn [res_bind]. pose proof (wrap64_spec (digits_value (g ++ ds))) as Hw64. apply int_spec. split.
      * rewrite <- (Z.add_0_r (_ * k)). apply (wrapped_affine _ _ k 0 Hw64). by rewrite Z.add_0_r.
      * intros Hch. apply Hlt in Hch.
        assert (wrap64 (digits_value (g ++ ds)) = digits_value (g ++ ds)) as ->;
          [|destruct Hk as [[-> _]|[-> _]]; lia].
        eapply wrapped_unique; [exact Hw64|]. split; [|exists 0; lia]. destruct Hk as [[-> _]|[-> _]]; lia.
Qed.

Lemma int_loop_stop checks am g x rest : Forall digit g → ¬ digit x → x ≠ thousands am → ∀ V after,
  0 <= V → V * 10 ^ zlen g + digits_value g < 2 ^ 63 →
  int_loop checks am (g ++ x :: rest) V after = Err ValueError.
Proof.
  intros Hg Hx Ht. induction Hg as [|c g Hc Hg IH]; intros V after HV Hlt; cbn [app int_loop].
  - apply isDigit_false in Hx. rewrite Hx.
    assert ((x =? 44) && am || (x =? 46) && negb am = false) as ->; [|done].
    unfold thousands in Ht. destruct am; lia.
  - apply isDigit_spec in Hc as Hc'. rewrite Hc'. rewrite digits_cons in Hlt. cbn [List.length] in Hlt.
    rewrite Nat2Z.inj_succ, Z.pow_succ_r in Hlt by lia.
    assert (1 <= 10 ^ zlen g) as Hp by (apply (Z.pow_le_mono_r 10 0); lia).
    pose proof (digits_bound g Hg) as Hb. unfold digit in Hc.
    assert (0 <= V * 10 + (c - 48)) by lia.
    assert ((V * 10 + (c - 48)) * 10 ^ zlen g + digits_value g < 2 ^ 63) as Hlt' by lia.
    assert (V * 10 + (c - 48) < 2 ^ 63) by nia.
    unfold int_. rewrite (proj2 (Z.leb_le _ _)), (proj2 (Z.ltb_lt _ _)) by lia. cbn [res_bind andb].
    by apply IH.
Qed.

Lemma parse_digits_stop g x rest v : Forall digit g → ¬ digit x → x ≠ 95 →
  parse_digits v (g ++ x :: rest) = Err ValueError.
Proof.
  intros Hg Hx Hn. revert v. induction Hg as [|c g Hc Hg IH]; intros v; cbn [app parse_digits].
  - apply isDigit_false in Hx. rewrite Hx. by rewrite (proj2 (Z.eqb_neq _ _) Hn).
  - apply isDigit_spec in Hc. by rewrite Hc.
Qed.

Lemma infer_int_any checks sep n s : sep = 44 ∨ sep = 46 → int_text sep n (no_blanks s) →
  - 2 ^ 63 < n < 2 ^ 63 → inferInt_any checks s = Ok n.
Proof.
  intros Hsep Ht Hn.
  assert (wrapped n n) as Hnn by (split; [lia|exists 0; lia]).
  pose proof Ht as (sign & g & rest & ds & Hne & Hg & Hgr & E & Hs).
  assert (∃ c r, g = c :: r ∧ digit c) as (c & r & Eg & Hc).
  { destruct g as [|c r]; [done|]. exists c, r. split; [done|]. by apply list.Forall_cons in Hg as [? _]. }
  assert (0 <= digits_value (g ++ ds) < 2 ^ 63) as Hb.
  { pose proof (groups_digits _ _ _ Hgr) as Hds.
    assert (Forall digit (g ++ ds)) as Hall by (by apply list.Forall_app).
    pose proof (digits_bound _ Hall). lia. }
  assert (parse_uint (g ++ rest) = (if decide (rest = []) then Ok (digits_value (g ++ ds)) else Err ValueError)) as Hu.
  { unfold parse_uint. assert (g ++ rest = c :: r ++ rest) as E' by (by rewrite Eg). rewrite E'.
    apply isDigit_spec in Hc as Hc'. rewrite Hc', <- E'. case_decide as Hr.
    - subst rest. apply groups_nil in Hgr as ->. rewrite !app_nil_r, parse_digits_value by done. done.
    - inversion Hgr as [|g' s' ds' Hg' Lg Hgr' E1 E2]; subst rest; [done|].
      apply parse_digits_stop; [done|unfold digit; lia|lia]. }
  assert (inferInt checks true false s = (if decide (rest = []) then Ok n else Err ValueError)) as Hsimple.
  { unfold inferInt. rewrite E.
    destruct (sign ++ g ++ rest) as [|x t] eqn:Ex.
    { exfalso. subst g. by destruct sign. }
    rewrite <- Ex. unfold parseInt.
    assert (match sign ++ g ++ rest with
            | [] => Err ValueError
            | d :: ds0 => if d =? 45 then res_map Z.opp (parse_uint ds0)
                          else if d =? 43 then parse_uint ds0 else parse_uint (sign ++ g ++ rest) end
            = if decide (rest = []) then Ok n else Err ValueError) as Hm.
    { destruct Hs as [[[->| ->] ->]|[-> ->]]; cbn [app].
      - rewrite Eg at 1. cbn [app]. unfold digit in Hc. rewrite !(proj2 (Z.eqb_neq c _)) by lia. exact Hu.
      - change (43 =? 45) with false. change (43 =? 43) with true. exact Hu.
      - change (45 =? 45) with true. cbv iota. rewrite Hu. by case_decide. }
    rewrite Hm. case_decide; [|done]. cbn [res_bind].
    rewrite (proj2 (Z.leb_le _ _)), (proj2 (Z.ltb_lt _ _)) by lia. done. }
  unfold inferInt_any. rewrite Hsimple. case_decide as Hr; [done|]. cbn [or_else].
  destruct Hsep as [->| ->].
  - assert (inferInt checks false true s = Ok n) as ->.
    { apply infer_int. exists n. done. }
    assert (inferInt checks false false s = Err ValueError) as ->; [|done].
    inversion Hgr as [|g' s' ds' Hg' Lg Hgr' E1 E2]; subst rest; [done|]. subst ds.
    assert (int_loop checks false (r ++ 44 :: g' ++ s') (c - 48) None = Err ValueError) as Hl.
    { subst g. apply list.Forall_cons in Hg as [_ Hg]. unfold digit in Hc.
      apply int_loop_stop; [done|unfold digit; lia|done|lia|]. rewrite <- digits_cons.
      rewrite digits_app in Hb. assert (Forall digit (c :: r)) as Hcr by (by constructor).
      pose proof (digits_bound _ Hcr). assert (Forall digit (g' ++ ds')) as Hd'.
      { apply list.Forall_app. split; [done|by eapply groups_digits]. }
      pose proof (digits_bound _ Hd').
      assert (1 <= 10 ^ zlen (g' ++ ds')) by (apply (Z.pow_le_mono_r 10 0); lia). nia. }
    unfold inferInt. rewrite E, Eg. apply isDigit_spec in Hc as Hc'.
    destruct Hs as [[[->| ->] ->]|[-> ->]]; cbn [app].
    + by rewrite Hc'.
    + change (isDigit 43) with false. change (43 =? 43) with true. cbn [orb]. by rewrite Hc', Hl.
    + change (isDigit 45) with false. change (45 =? 43) with false. change (45 =? 45) with true. cbn [orb].
      by rewrite Hc', Hl.
  - assert (inferInt checks false false s = Ok n) as ->; [|done].
    apply infer_int. exists n. done.
Qed.

(** * Summary *)
Lemma infer_date_any_all checks style sep d s :
  date_text style sep d s → zlen s <= 10 → date_separator sep → valid_ymd d → ¬ late_december style d →
  (style = MonthFirst → 12 < dd d) → inferDate_any checks s = Ok d.
Proof.
  intros Ht Hl Hs Hv Hd Hm. destruct style.
  - pose proof (infer_date checks Iso sep d s Ht Hl Hs Hv Hd) as E. cbn [compact month_first] in E.
    unfold inferDate_any. by rewrite E.
  - pose proof (infer_date checks DayFirst sep d s Ht Hl Hs Hv Hd) as E. cbn [compact month_first] in E.
    unfold inferDate_any. by rewrite E.
  - by eapply infer_date_any; auto.
  - by eapply infer_date_any_compact.
Qed.

Lemma infer_datetime_ok checks style sep d us s : datetime_text style sep d us s → date_separator sep → valid_ymd d →
  ¬ late_december style d →
  ∃ d' us', moment d us d' us' ∧ inferDatetime checks (month_first style) s = Ok (d', us').
Proof. intros. destruct (infer_datetime checks style sep d us s) as (d' & us' & ? & ? & _); [done..|]. eauto. Qed.

Lemma infer_datetime_any checks style sep d us s : datetime_text style sep d us s → date_separator sep → valid_ymd d →
  ¬ late_december style d → (style = MonthFirst → 12 < dd d) →
  ∃ d' us', moment d us d' us' ∧ inferDatetime_any checks s = Ok (d', us').
Proof.
  intros Ht Hs Hv Hl Hm.
  destruct (infer_datetime checks style sep d us s) as (d' & us' & Hmo & H & Hf); [done..|].
  exists d', us'. split; [done|]. unfold inferDatetime_any. destruct style; cbn [month_first] in H; rewrite ?H; try done.
  by rewrite Hf by auto.
Qed.

Lemma no_blanks_spec s : no_blanks s = without_blanks s.
Proof. apply list_filter_iff. tauto. Qed.

Lemma infer_int_text checks am s v : inferInt checks false am s = Ok v ↔
  ∃ n, int_text (if am then 44 else 46) n (without_blanks s) ∧ wrapped n v ∧ (checks = true → - 2 ^ 63 < n < 2 ^ 63).
Proof. rewrite <- no_blanks_spec. apply infer_int. Qed.

Lemma infer_int_any_text checks sep n s : sep = 44 ∨ sep = 46 → int_text sep n (without_blanks s) →
  - 2 ^ 63 < n < 2 ^ 63 → inferInt_any checks s = Ok n.
Proof. rewrite <- no_blanks_spec. apply infer_int_any. Qed.
