(** Columns of numbers, in the release build. *)
From Coq Require Import String ZifyBool.
From Verif.Spec Require Import GuessedPage Counts.
From Verif.Proof Require Import NpyProofs RankProofs InferProofs GuessProofs GuessKinds.
Local Open Scope Z_scope.

Lemma guessDate_err w0 w1 w2 am e : guessDate w0 w1 w2 am = Err e → e = ValueError.
Proof.
  assert (∀ A (f : Z → res A) w, (∀ v, f v = Err e → e = ValueError) → res_bind (parseInt w) f = Err e → e = ValueError) as Hb.
  { intros A f w Hf H. destruct (parseInt w) eqn:E; [by eapply Hf|]. injection H as <-. by eapply parseInt_err. }
  unfold guessDate. destruct (zlen w0 =? 4); [|destruct (zlen w2 =? 4); [|congruence]];
    do 3 (apply Hb; intros ?); repeat case_match; congruence.
Qed.

Lemma has_tokens_err at_ s e : has_tokens at_ s = Err e → e = ValueError.
Proof.
  induction s as [|c s IH]; intros H; [done|]. cbn [has_tokens] in H.
  repeat (case_match; try done; auto). congruence.
Qed.

(** in the release build a short date is read or refused with [ValueError] *)
Lemma short_err s e : inferDate false true false s = Err e → e = ValueError.
Proof.
  unfold inferDate. intros H. case_match; [congruence|]. unfold parseDateWords in H. case_match; [cbn in H; congruence|].
  destruct (has_tokens false (take 5 s)) as [[]|x] eqn:E; cbn [res_bind] in H.
  - congruence.
  - case_match; cbn [res_bind] in H; [congruence|]. unfold wordsToDate in H.
    destruct (guessDate _ _ _ _) as [[[y m] d]|x] eqn:G; cbn [res_bind] in H.
    + repeat (case_match; try congruence). unfold newPyDate in H. by case_match.
    + injection H as <-. by eapply guessDate_err.
  - injection H as <-. by eapply has_tokens_err.
Qed.

Lemma int_loop_err am s v after e : int_loop false am s v after = Err e → e = ValueError.
Proof.
  revert v after. induction s as [|c s IH]; intros v after H; cbn [int_loop] in H.
  { case_match; congruence. }
  unfold int_ in H.
  destruct (isDigit c).
  - destruct (_ && _); cbn [res_bind] in H; by eapply IH.
  - repeat (case_match; try congruence). by eapply IH.
Qed.

Lemma int_err simple am s e : inferInt false simple am s = Err e → e = ValueError.
Proof.
  unfold inferInt. intros H. destruct (no_blanks s) as [|c r]; [congruence|]. destruct simple; [by eapply parseInt_err|].
  destruct (isDigit c); [by eapply int_loop_err|]. case_match; [|congruence]. destruct r as [|d r]; [congruence|].
  destruct (isDigit d); [|congruence].
  destruct (int_loop false am r (d - 48) None) as [v|x] eqn:E; cbn [res_bind] in H.
  - unfold int_ in H. by case_match.
  - injection H as <-. by eapply int_loop_err.
Qed.

Section Numbers.
  Context (fa : float_arith).
  Notation R := (read fa false).

  (** the types up to [DT_FLOAT_SIMPLE] refuse with [ValueError] *)
  Lemma early_err u s x : u ∈ take 7 all_ntypes → R u s = Err x → x = ValueError.
  Proof.
    intros Hu H.
    assert (∀ A B (f : A → B) (r : res A), (∀ e, r = Err e → e = ValueError) → res_map f r = Err x → x = ValueError) as Hm.
    { intros A B f r Hr E. destruct r; [done|]. injection E as <-. by apply Hr. }
    assert (∀ t, bool_decide (t ∈ take 7 all_ntypes) = false → t ∉ take 7 all_ntypes) as Hni.
    { intros t. apply bool_decide_eq_false. }
    destruct u; try (exfalso; revert Hu; apply Hni; by vm_compute); clear Hu Hni; cbn [read] in H;
      (eapply Hm; [|exact H]; clear H; intros e H); try (by eapply short_err); try (by eapply int_err).
    - unfold inferNone in H. case_match; congruence.
    - unfold inferBool in H. repeat (case_match; try congruence).
    - unfold inferFloat in H. repeat (case_match; try congruence).
  Qed.

  Lemma first_type_among s t T : first_type fa false s t → readable R T s → t ∈ upto T all_ntypes ++ [T].
  Proof.
    intros (pre & post & Hall & Hok & Hpre) [c Hc]. pose proof (types_before _ _ _ Hall) as ->.
    assert (T ∉ upto t all_ntypes) as H1. { intros H%Hpre. by rewrite Hc in H. }
    destruct t; try (exfalso; apply H1; apply (bool_decide_unpack _); destruct T; by vm_compute);
      destruct T; try (apply (bool_decide_unpack _); by vm_compute);
      exfalso; apply H1; apply (bool_decide_unpack _); by vm_compute.
  Qed.

  (** ** Whole numbers *)
  Lemma whole_text_int n s : whole_text n s → ∀ sep, int_text sep n s.
  Proof.
    intros (ds & m & (Hne & Hd & Hm) & Hs) sep. destruct Hs as [[-> ->]|[-> ->]].
    - exists [], ds, [], []. rewrite !app_nil_r. split_and!; [done|done|constructor|done|]. left. split; [by left|done].
    - exists [45], ds, [], []. rewrite !app_nil_r. split_and!; [done|done|constructor|done|]. right. by subst m.
  Qed.

  Lemma no_blanks_same s : Forall (λ c, digit c ∨ c = 45 ∨ c = 46) s → no_blanks s = s.
  Proof.
    intros H. unfold no_blanks. apply list_filter_all. eapply list.Forall_impl; [exact H|].
    intros c Hc. unfold digit in Hc. cbn beta in *. lia.
  Qed.

  Lemma digits_plain g : Forall digit g → Forall (λ c, digit c ∨ c = 45 ∨ c = 46) g.
  Proof. intros H. eapply list.Forall_impl; [exact H|]. intros c Hc. by left. Qed.

  Lemma whole_no_blanks n s : whole_text n s → no_blanks s = s.
  Proof.
    intros (ds & m & (Hne & Hd & Hm) & Hs). apply no_blanks_same.
    destruct Hs as [[-> _]|[-> _]]; [by apply digits_plain|]. constructor; [by right; left|by apply digits_plain].
  Qed.

  Lemma whole_parseInt n s : whole_text n s → - 2 ^ 63 < n < 2 ^ 63 → parseInt s = Ok n.
  Proof.
    intros (ds & m & (Hne & Hd & Hm) & Hs) Hn.
    assert (parse_uint ds = Ok m) as Hp.
    { unfold parse_uint. rewrite parse_digits_value by done. destruct ds as [|d ds]; [done|].
      apply list.Forall_cons in Hd as [Hd _]. apply isDigit_spec in Hd. rewrite Hd. by rewrite <- Hm. }
    unfold parseInt. destruct Hs as [[-> ->]|[-> ->]].
    - destruct ds as [|d ds']; [done|]. apply list.Forall_cons in Hd as [Hd _]. unfold digit in Hd.
      rewrite !(proj2 (Z.eqb_neq d _)) by lia. rewrite Hp. cbn [res_bind].
      rewrite (proj2 (Z.leb_le _ _)), (proj2 (Z.ltb_lt _ _)) by lia. done.
    - change (45 =? 45) with true. cbv iota. rewrite Hp. cbn [res_map res_bind].
      rewrite (proj2 (Z.leb_le _ _)), (proj2 (Z.ltb_lt _ _)) by lia. done.
  Qed.

  Lemma whole_types n s : whole_text n s → - 2 ^ 63 < n < 2 ^ 63 →
    (∀ t, isAnyInt t = true → R t s = Ok (CInt n)) ∧ R DT_FLOAT_SIMPLE s = Ok (CFloat (f_parse fa s)) ∧
    R DT_NONE s = Err ValueError ∧ R DT_BOOL s = Err ValueError.
  Proof.
    intros Hw Hn. pose proof (whole_no_blanks n s Hw) as Hb. pose proof (whole_parseInt n s Hw Hn) as Hp.
    assert (∃ c r, s = c :: r ∧ (digit c ∨ c = 45)) as (c & r & -> & Hc).
    { destruct Hw as (ds & m & (Hne & Hd & Hm) & Hs). destruct Hs as [[-> _]|[-> _]]; [|eauto].
      destruct ds as [|d ds]; [done|]. apply list.Forall_cons in Hd as [Hd _]. eauto. }
    split_and!.
    - assert (∀ am, inferInt false false am (c :: r) = Ok n) as Hi.
      { intros am. apply infer_int. exists n. rewrite Hb. split_and!; [by apply whole_text_int| |done].
        split; [lia|exists 0; lia]. }
      intros t Ht. destruct t; try done; cbn [read]; [|by rewrite Hi..].
      unfold inferInt. rewrite Hb. by rewrite Hp.
    - cbn [read]. unfold inferFloat. rewrite Hb. by rewrite (parseInt_float _ _ Hp).
    - destruct Hc as [Hc| ->]; [by apply (digit_not_word fa false)|]. cbn [read]. unfold inferNone.
      rewrite bool_decide_false; [done|]. intros H.
      repeat (apply elem_of_cons in H as [E|H]; [done|]). by apply elem_of_nil in H.
    - destruct Hc as [Hc| ->]; [by apply (digit_not_word fa false)|]. cbn [read]. unfold inferBool. cbn [map].
      rewrite !bool_decide_false; [done| |]; intros E; by injection E.
  Qed.

  (** ** Decimals *)
  Lemma parse_digits_point v w n : parse_digits v w = Ok n → 46 ∉ w.
  Proof.
    revert v. induction w as [|c w IH]; intros v H; [apply not_elem_of_nil|]. cbn [parse_digits] in H.
    apply not_elem_of_cons. destruct (isDigit c) eqn:E.
    - apply isDigit_spec in E. unfold digit in E. split; [lia|by eapply IH].
    - destruct (c =? 95) eqn:E'; [|done]. split; [lia|by eapply IH].
  Qed.

  Lemma parseInt_point w n : parseInt w = Ok n → 46 ∉ w.
  Proof.
    assert (∀ w n, parse_uint w = Ok n → 46 ∉ w) as Hu.
    { intros u m H. unfold parse_uint in H. destruct u as [|c u]; [done|]. destruct (isDigit c); [|done].
      by eapply parse_digits_point. }
    unfold parseInt. destruct w as [|c w]; [done|]. intros H.
    destruct (c =? 45) eqn:E; [|destruct (c =? 43) eqn:E2].
    - destruct (parse_uint w) eqn:E3; [|done]. apply Hu in E3. apply not_elem_of_cons. split; [lia|done].
    - destruct (parse_uint w) eqn:E3; [|done]. apply Hu in E3. apply not_elem_of_cons. split; [lia|done].
    - destruct (parse_uint (c :: w)) eqn:E3; [|done]. by apply Hu in E3.
  Qed.

  Lemma has_tokens_no s : has_tokens false s = Ok false → Forall digit s.
  Proof.
    induction s as [|c s IH]; intros H; [constructor|]. cbn [has_tokens] in H.
    destruct (isDigit c) eqn:E.
    - constructor; [by apply isDigit_spec|by apply IH].
    - destruct (accepted_token c); [done|]. by rewrite andb_false_r in H.
  Qed.

  Lemma decimal_not_short a b s d : decimal_text a b s → length a ≠ 8%nat → inferDate false true false s ≠ Ok d.
  Proof.
    intros (Ha & Hb & Da & Db & Hs) H8 H. unfold inferDate in H.
    assert (runeLen s = zlen s) as Hrl.
    { apply runeLen_ascii. assert (∀ g, Forall digit g → Forall (λ c, 0 <= c <= 127) g) as Hasc.
      { intros g Hg. eapply list.Forall_impl; [exact Hg|]. intros x Hx. unfold digit in Hx. lia. }
      destruct Hs as [->| ->]; repeat (first [apply list.Forall_app; split | apply list.Forall_cons_2]);
        try lia; try (by apply Hasc); constructor. }
    rewrite Hrl in H. destruct (_ || _) eqn:Hlen in H; [done|]. unfold parseDateWords in H.
    destruct (negb _); [done|].
    destruct (has_tokens false (take 5 s)) as [[]|] eqn:E; cbn [res_bind] in H; [done| |done].
    apply has_tokens_no in E.
    assert (s = a ++ [46] ++ b) as ->.
    { destruct Hs as [->| ->]; [done|]. cbn [take] in E. apply list.Forall_cons in E as [E _]. unfold digit in E. lia. }
    assert (5 <= length a)%nat as H5.
    { destruct (decide (5 <= length a)%nat) as [|Hlt]; [done|].
      assert (46 ∈ take 5 (a ++ [46] ++ b)) as Hin.
      { apply elem_of_list_lookup. exists (length a). rewrite lookup_take by lia. rewrite lookup_app_r by lia.
        by rewrite Nat.sub_diag. }
      pose proof (proj1 (list.Forall_forall _ _) E _ Hin) as Hd. unfold digit in Hd. lia. }
    destruct b as [|b0 b]; [done|].
    rewrite !app_length in Hlen. cbn [length app] in Hlen.
    case_match; [done|]. cbn [res_bind] in H. unfold wordsToDate in H.
    set (s := a ++ [46] ++ b0 :: b) in *.
    assert (s !! length a = Some 46) as Hl.
    { subst s. rewrite lookup_app_r by lia. by rewrite Nat.sub_diag. }
    assert (zlen (take 4 s) =? 4 = true) as H4.
    { rewrite take_length. subst s. rewrite !app_length. cbn [length app]. lia. }
    unfold guessDate in H. rewrite H4 in H.
    destruct (parseInt (take 4 s)); [|done]. cbn [res_bind] in H.
    destruct (parseInt (take 2 (drop 4 s))) as [m|] eqn:E1; [|done]. cbn [res_bind] in H.
    destruct (parseInt (take 2 (drop 6 s))) as [n|] eqn:E2; [|done].
    apply parseInt_point in E1, E2.
    destruct (decide (length a < 6)%nat).
    - apply E1. apply elem_of_list_lookup. exists (length a - 4)%nat. rewrite lookup_take by lia.
      rewrite lookup_drop. by replace (4 + (length a - 4))%nat with (length a) by lia.
    - apply E2. apply elem_of_list_lookup. exists (length a - 6)%nat. rewrite lookup_take by lia.
      rewrite lookup_drop. by replace (6 + (length a - 6))%nat with (length a) by lia.
  Qed.

  Lemma groups_chars sep s ds : groups sep s ds → Forall (λ c, digit c ∨ c = sep) s.
  Proof.
    induction 1 as [|g s ds Hg _ _ IH]; [constructor|]. constructor; [by right|].
    apply list.Forall_app. split; [|done]. eapply list.Forall_impl; [exact Hg|]. intros c Hc. by left.
  Qed.

  Lemma digits_split a b c d x : Forall digit a → Forall digit c → ¬ digit x →
    (d = [] ∨ ∃ d', d = x :: d') → a ++ x :: b = c ++ d → a = c ∧ d = x :: b.
  Proof.
    intros Ha. revert c. induction Ha as [|y a Hy Ha IH]; intros c Hc Hx Hd E; destruct Hc as [|z c Hz Hc]; cbn [app] in E.
    - by destruct Hd as [->|[d' ->]]; [done|].
    - injection E as -> _. done.
    - destruct Hd as [->|[d' ->]]; [done|]. injection E as -> _. done.
    - injection E as -> E. destruct (IH c Hc Hx Hd E) as [-> ->]. done.
  Qed.

  Lemma decimal_not_int a b s sep n : decimal_text a b s → length b ≠ 3%nat → sep = 44 ∨ sep = 46 → ¬ int_text sep n s.
  Proof.
    intros (Ha & Hb & Da & Db & Hs) H3 Hsep (sign & g & rest & ds & Hg & Dg & Hgr & E & Hsign).
    assert (a ++ 46 :: b = g ++ rest) as Eq.
    { destruct g as [|g0 g]; [done|]. apply list.Forall_cons in Dg as [Dg0 Dg].
      destruct a as [|a0 a]; [done|]. apply list.Forall_cons in Da as [Da0 Da]. unfold digit in *.
      destruct Hs as [->| ->]; destruct Hsign as [[[->| ->] _]|[-> _]]; cbn [app] in *; try done.
      all: injection E as E1 E2; try lia; subst; try done. all: congruence. }
    destruct Hsep as [->| ->].
    - (* the point is no character of such a number *)
      assert (46 ∈ g ++ rest) as Hin by (rewrite <- Eq; apply elem_of_app; right; left).
      apply elem_of_app in Hin as [Hin|Hin].
      + pose proof (proj1 (list.Forall_forall _ _) Dg _ Hin) as Hd. unfold digit in Hd. lia.
      + pose proof (proj1 (list.Forall_forall _ _) (groups_chars _ _ _ Hgr) _ Hin) as Hd. unfold digit in Hd. lia.
    - destruct (digits_split a b g rest 46) as [-> ->].
      + done.
      + done.
      + unfold digit. lia.
      + destruct Hgr; [by left|right; by eexists].
      + done.
      + inversion Hgr as [|g3 s3 ds3 D3 L3 Hgr3 Es]; subst.
        destruct Hgr3 as [|g4 s4 ds4 D4 L4 Hgr4].
        * by rewrite app_nil_r in H3.
        * apply list.Forall_app in Db as [_ Db]. apply list.Forall_cons in Db as [Db _]. unfold digit in Db. lia.
  Qed.

  Lemma decimal_types a b s : decimal_text a b s → length a ≠ 8%nat → length b ≠ 3%nat →
    (∀ u, u ∈ upto DT_FLOAT_SIMPLE all_ntypes → R u s = Err ValueError) ∧
    R DT_FLOAT_SIMPLE s = Ok (CFloat (f_parse fa s)).
  Proof.
    intros Hdec H8 H3. pose proof Hdec as (Ha & Hb & Da & Db & Hs).
    assert (no_blanks s = s) as Hnb.
    { apply no_blanks_same. pose proof (digits_plain a Da). pose proof (digits_plain b Db).
      destruct Hs as [->| ->]; repeat (first [apply list.Forall_app; split | apply list.Forall_cons_2]); auto. }
    destruct a as [|a0 a]; [done|]. pose proof Da as [Da0 Da']%list.Forall_cons.
    assert (∃ c r, s = c :: r ∧ (digit c ∨ c = 45)) as (c & r & Ecr & Hc).
    { destruct Hs as [->| ->]; cbn [app]; eauto. }
    split.
    - assert (∀ u x, R u s = Ok x → u ∈ upto DT_FLOAT_SIMPLE all_ntypes → False) as Hno.
      { intros u x Hx Hu. destruct u; try (revert Hu; apply (bool_decide_eq_false (_ ∈ _)); by vm_compute); clear Hu;
          cbn [read] in Hx; (match type of Hx with res_map _ ?y = _ => destruct y as [v|] eqn:E; [clear Hx|done] end).
        - rewrite Ecr in E. destruct Hc as [Hc| ->].
          + pose proof (proj1 (digit_not_word fa false c r Hc)) as Hw. cbn [read] in Hw. by rewrite E in Hw.
          + unfold inferNone in E. rewrite bool_decide_false in E; [done|]. intros H.
            repeat (apply elem_of_cons in H as [E'|H]; [done|]). by apply elem_of_nil in H.
        - rewrite Ecr in E. destruct Hc as [Hc| ->].
          + pose proof (proj2 (digit_not_word fa false c r Hc)) as Hw. cbn [read] in Hw. by rewrite E in Hw.
          + unfold inferBool in E. cbn [map] in E. rewrite !bool_decide_false in E; [done| |]; intros E'; by injection E'.
        - by eapply decimal_not_short.
        - unfold inferInt in E. rewrite Hnb in E. rewrite Ecr in E. apply parseInt_point in E. apply E. rewrite <- Ecr.
          destruct Hs as [->| ->]; [|right]; apply elem_of_app; right; left.
        - apply infer_int in E as (n & Hn & _). rewrite Hnb in Hn. by eapply decimal_not_int; [| |by left|].
        - apply infer_int in E as (n & Hn & _). rewrite Hnb in Hn. by eapply decimal_not_int; [| |by right|]. }
      intros u Hu. destruct (R u s) as [x|x] eqn:E; [by destruct (Hno u x)|]. f_equal.
      eapply early_err; [|exact E]. change (upto DT_FLOAT_SIMPLE all_ntypes) with (take 6 all_ntypes) in Hu.
      change (take 7 all_ntypes) with (take 6 all_ntypes ++ [DT_FLOAT_SIMPLE]). apply elem_of_app. by left.
    - cbn [read]. unfold inferFloat. rewrite Hnb. rewrite Ecr.
      assert (parseFloat_ok (c :: r) = true) as ->; [|done]. rewrite <- Ecr.
      assert (∀ g w rest, Forall digit g → g ≠ [] → float_digits w (g ++ 46 :: rest) = (length g, 46 :: rest)) as Hfd1.
      { intros g w rest Hg _. revert w. induction Hg as [|x g Hx _ IH]; intros w; [by destruct w|].
        cbn [app float_digits]. apply isDigit_spec in Hx. rewrite Hx. by rewrite IH. }
      assert (∀ g w, Forall digit g → float_digits w g = (length g, [])) as Hfd2.
      { intros g w Hg. revert w. induction Hg as [|x g Hx _ IH]; intros w; [done|].
        cbn [float_digits]. apply isDigit_spec in Hx. rewrite Hx. by rewrite IH. }
      unfold digit in Da0. unfold parseFloat_ok. destruct Hs as [->| ->]; cbn [app].
      + rewrite !(proj2 (Z.eqb_neq a0 _)) by lia. cbn [orb].
        match goal with |- (if ?x then _ else _) = true => destruct x; [done|] end.
        change (a0 :: a ++ 46 :: b) with ((a0 :: a) ++ 46 :: b). rewrite Hfd1 by done.
        change (46 =? 46) with true. cbv iota. by rewrite Hfd2.
      + change ((45 =? 43) || (45 =? 45)) with true. cbv iota.
        match goal with |- (if ?x then _ else _) = true => destruct x; [done|] end.
        change (a0 :: a ++ 46 :: b) with ((a0 :: a) ++ 46 :: b). rewrite Hfd1 by done.
        change (46 =? 46) with true. cbv iota. by rewrite Hfd2.
  Qed.

  (** ** Columns of numbers *)
  Lemma not_compact_short s : not_compact s → Forall (λ c, digit c ∨ c = 45 ∨ c = 46) s → ¬ readable R DT_DATE_SHORT s.
  Proof.
    intros Hn Hs [c Hc]. cbn [read] in Hc. unfold inferDate in Hc.
    rewrite runeLen_ascii in Hc.
    2:{ eapply list.Forall_impl; [exact Hs|]. intros x Hx. unfold digit in Hx. lia. }
    unfold not_compact in Hn. destruct (_ || _) eqn:E in Hc; [done|]. lia.
  Qed.

  Lemma whole_chars n s : whole_text n s → Forall (λ c, digit c ∨ c = 45 ∨ c = 46) s.
  Proof.
    intros (ds & m & (_ & Hd & _) & Hs). destruct Hs as [[-> _]|[-> _]]; [by apply digits_plain|].
    apply list.Forall_cons_2; [auto|by apply digits_plain].
  Qed.

  Lemma decimal_chars s : plain_decimal s → Forall (λ c, digit c ∨ c = 45 ∨ c = 46) s.
  Proof.
    intros (a & b & (_ & _ & Ha & Hb & Hs) & _).
    pose proof (digits_plain a Ha). pose proof (digits_plain b Hb).
    destruct Hs as [->| ->]; repeat (first [apply list.Forall_app; split | apply list.Forall_cons_2]); auto.
  Qed.

  (** the types of the texts of a column of numbers *)
  Lemma whole_first n s t : whole_text n s → - 2 ^ 63 < n < 2 ^ 63 → first_type fa false s t →
    t = DT_DATE_SHORT ∨ t = DT_INT_SIMPLE.
  Proof.
    intros Hw Hr Ht. destruct (whole_types n s Hw Hr) as (Hi & _ & Hn & Hb).
    pose proof (first_type_among s t DT_INT_SIMPLE Ht (ex_intro _ _ (Hi DT_INT_SIMPLE eq_refl))) as Hin.
    destruct Ht as (pre & post & Hsplit & Hok & _).
    change (upto DT_INT_SIMPLE all_ntypes ++ [DT_INT_SIMPLE]) with [DT_NONE; DT_BOOL; DT_DATE_SHORT; DT_INT_SIMPLE] in Hin.
    repeat (apply elem_of_cons in Hin as [->|Hin]; [try (by rewrite ?Hn, ?Hb in Hok); auto|]). by apply elem_of_nil in Hin.
  Qed.

  Lemma decimal_first s t : plain_decimal s → first_type fa false s t → t = DT_FLOAT_SIMPLE.
  Proof.
    intros (a & b & Hd & H8 & H3) Ht. destruct (decimal_types a b s Hd H8 H3) as [Hpre Hok].
    by apply (first_type_at fa false s DT_FLOAT_SIMPLE _ Hok Hpre).
  Qed.

  Definition num_text (s : list Z) : Prop := (∃ n, whole_text n s ∧ - 2 ^ 63 < n < 2 ^ 63) ∨ plain_decimal s.

  (** what is known after the first pass *)
  Lemma numbers_collected texts (P : ntype → Prop) :
    (∀ s, s ∈ texts → num_text s) → (∀ s t, s ∈ texts → first_type fa false s t → P t) →
    (∀ t, P t → t = DT_DATE_SHORT ∨ t = DT_INT_SIMPLE ∨ t = DT_FLOAT_SIMPLE) →
    texts ≠ [] →
    ∃ dts longest r t1 ts r', collectPageInfo fa false (map Some texts) 1 newRank = Ok (longest, r) ∧
      (∀ t, t ∈ dts → P t) ∧ (∀ s, s ∈ texts → ∃ t, t ∈ dts ∧ readable R t s) ∧
      dumpPageHeader r = Ok (page_kind t1 ts, r') ∧ (∀ t, t ∈ t1 :: ts ↔ t ∈ dts) ∧ NoDup (t1 :: ts) ∧
      r'.*1 ≡ₚ all_ntypes ∧ (∀ t n, (t, n) ∈ r' → n = count_if (λ u, u = t) dts) ∧
      (page_kind t1 ts ≠ PG_OBJECT →
       ∀ i j a b, (i < j)%nat → r' !! i = Some a → r' !! j = Some b → b.2 <= a.2).
  Proof.
    intros Htexts HP HP3 Hne.
    assert (∀ f, f ∈ map Some texts → ∃ s, f = Some s ∧ s ∈ texts) as Hfield.
    { intros f Hf. apply elem_of_list_fmap in Hf as (s & -> & Hs). eauto. }
    assert (∀ t, t = DT_DATE_SHORT ∨ t = DT_INT_SIMPLE ∨ t = DT_FLOAT_SIMPLE → t ∈ take 7 all_ntypes) as H7.
    { intros t [->|[->| ->]]; apply (bool_decide_unpack _); by vm_compute. }
    destruct (collect_ok fa false P (map Some texts) [] newRank 1) as (dts & longest & r & Hcollect & Hinv & _ & HF).
    - apply newRank_inv.
    - intros f Hf u x Hu Hx. destruct (Hfield f Hf) as (s & -> & Hs). change (field_text (Some s)) with s in *.
      eapply early_err; [|exact Hx]. destruct Hu as [Hu|(t & Ht & Hin)]; [apply H7; by apply HP3|].
      pose proof (HP s t Hs Ht) as Ht'%HP3.
      destruct Ht' as [->|[->| ->]]; revert Hin; clear; intros Hin;
        apply (bool_decide_unpack _); destruct u; try (by vm_compute);
        exfalso; revert Hin; apply (bool_decide_eq_false (_ ∈ _)); by vm_compute.
    - intros f t Hf Ht. destruct (Hfield f Hf) as (s & -> & Hs). by eapply HP.
    - intros t Ht. by apply elem_of_nil in Ht.
    - cbn [app] in Hinv.
      assert (∀ dt, dt ∈ dts → P dt) as Hdts.
      { intros dt [i Hi]%elem_of_list_lookup. by destruct (Forall2_lookup_r _ _ _ _ _ HF Hi) as (f & _ & H & _). }
      destruct (header_ok dts r Hinv) as (t1 & ts & r' & Hts & Hheader & _ & Hsort & Hperm & Hnd).
      { intros ->. inversion HF as [E|]. by destruct texts. }
      { exists DT_STRING. intros H%Hdts%HP3. naive_solver. }
      exists dts, longest, r, t1, ts, r'. split_and!; try done.
      + intros s Hs. assert (Some s ∈ map Some texts) as [i Hi]%elem_of_list_lookup by (apply elem_of_list_fmap; eauto).
        destruct (Forall2_lookup_l _ _ _ _ _ HF Hi) as (dt & Hd & _ & H1 & _).
        exists dt. split; [by eapply elem_of_list_lookup_2|done].
      + pose proof Hinv as [(Hp & _ & _) _]. rewrite (fmap_Permutation fst _ _ Hperm). done.
      + pose proof Hinv as [(_ & Hc & _) _]. intros t n Hin. apply Hc. by rewrite <- Hperm.
      + intros Hk. destruct (Hsort Hk) as (n & rest & _ & H). exact H.
  Qed.

  Lemma import_ints texts ns :
    Forall2 (λ s n, whole_text n s ∧ - 2 ^ 63 < n < 2 ^ 63) texts ns → (∃ s, s ∈ texts ∧ not_compact s) →
    import_page fa false (map Some texts) = Ok (PG_INT, map CInt ns).
  Proof.
    intros HF (s0 & Hs0 & Hnc).
    assert (∀ s, s ∈ texts → ∃ n, whole_text n s ∧ - 2 ^ 63 < n < 2 ^ 63) as Hw.
    { intros s [i Hi]%elem_of_list_lookup. destruct (Forall2_lookup_l _ _ _ _ _ HF Hi) as (n & _ & H). eauto. }
    destruct (numbers_collected texts (λ t, t = DT_DATE_SHORT ∨ t = DT_INT_SIMPLE))
      as (dts & longest & r & t1 & ts & r' & Hcollect & Hdts & Hread & Hheader & Hts & Hnd & Hall & Hcount & Hsort).
    - intros s Hs. left. by apply Hw.
    - intros s t Hs Ht. destruct (Hw s Hs) as (n & H1 & H2). by eapply whole_first.
    - naive_solver.
    - by intros ->; apply elem_of_nil in Hs0.
    - assert (DT_INT_SIMPLE ∈ t1 :: ts) as Hint.
      { apply Hts. destruct (Hread s0 Hs0) as (t & Ht & Hr). destruct (Hdts t Ht) as [->| ->]; [|done].
        destruct (Hw s0 Hs0) as (n & H1 & _). exfalso. by eapply not_compact_short; [|eapply whole_chars|]. }
      assert (page_kind t1 ts = PG_INT) as Hkind.
      { assert (∀ t, t ∈ t1 :: ts → t = DT_DATE_SHORT ∨ t = DT_INT_SIMPLE) as Hin by (intros t Ht%Hts; by apply Hdts).
        clear -Hint Hin Hnd. destruct (Hin t1 ltac:(left)) as [->| ->];
          destruct ts as [|t2 ts]; [| |done|]; try (by apply elem_of_list_singleton in Hint).
        all: destruct (Hin t2 ltac:(right; left)) as [->| ->];
          destruct ts as [|t3 ts]; try done; exfalso.
        all: repeat (apply list.NoDup_cons in Hnd as [? Hnd]).
        all: try (destruct (Hin t3 ltac:(right; right; left)) as [->| ->]); set_solver. }
      rewrite Hkind in *. unfold import_page. rewrite Hcollect. cbn [res_bind]. rewrite Hheader. cbn [res_bind].
      destruct (dumpPageBody_ok fa false PG_INT longest r' (map Some texts)
                  (λ f x, ∃ s n, f = Some s ∧ whole_text n s ∧ - 2 ^ 63 < n < 2 ^ 63 ∧ x = CInt n)) as (cs & Hcs & HQ).
      { intros f Hf. apply elem_of_list_fmap in Hf as (s & -> & Hs). destruct (Hw s Hs) as (n & H1 & H2).
        destruct (whole_types n s H1 H2) as (Hi & _).
        destruct (read_by_ok fa false isAnyInt r' s Hall) as (t & c & Hc & Ht & HR).
        - intros t e Ht Hx. rewrite Hi in Hx by done. done.
        - exists DT_INT_SIMPLE. split; [done|]. eexists. by apply Hi.
        - exists c. split; [exact Hc|]. exists s, n. rewrite Hi in HR by done. injection HR as <-. done. }
      rewrite Hcs. cbn [res_map]. do 2 f_equal.
      eapply (Forall2_unique _ (λ f c, ∃ s n, f = Some s ∧ c = CInt n ∧ whole_text n s ∧ - 2 ^ 63 < n < 2 ^ 63)); [exact HQ| |].
      + apply Forall2_fmap. eapply Forall2_impl; [exact HF|]. intros s n [H1 H2]. exists s, n. done.
      + intros f x y (s & n & -> & H1 & H2 & ->) (s' & n' & [= <-] & -> & H1' & H2').
        destruct (whole_types n s H1 H2) as (Hi & _). destruct (whole_types n' s H1' H2') as (Hi' & _).
        pose proof (Hi DT_INT_SIMPLE eq_refl) as E. pose proof (Hi' DT_INT_SIMPLE eq_refl) as E'. congruence.
  Qed.

  (** the first type that fits *)
  Lemma first_fit_at fits (pre : nrank) e (post : nrank) c i :
    (∀ x, x ∈ pre → fits x.1 = Err ValueError) → fits e.1 = Ok c →
    first_fit fits i (pre ++ e :: post) = Ok ((i + length pre)%nat, e, c).
  Proof.
    intros Hpre He. revert i. induction pre as [|x pre IH]; intros i; cbn [app first_fit].
    - rewrite He. cbn [length]. by rewrite Nat.add_0_r.
    - rewrite Hpre by left. rewrite IH by (intros y Hy; apply Hpre; by right). cbn [length]. do 3 f_equal. lia.
  Qed.

  Lemma import_floats texts :
    (∀ s, s ∈ texts → num_text s) → (∃ s, s ∈ texts ∧ plain_decimal s) →
    import_page fa false (map Some texts) = Ok (PG_FLOAT, map (λ s, CFloat (f_parse fa s)) texts).
  Proof.
    intros Htexts (s0 & Hs0 & Hdec).
    destruct (numbers_collected texts (λ t, t = DT_DATE_SHORT ∨ t = DT_INT_SIMPLE ∨ t = DT_FLOAT_SIMPLE))
      as (dts & longest & r & t1 & ts & r' & Hcollect & Hdts & Hread & Hheader & Hts & Hnd & Hall & Hcount & Hsort).
    - done.
    - intros s t Hs Ht. destruct (Htexts s Hs) as [(n & H1 & H2)|H].
      + destruct (whole_first n s t H1 H2 Ht); auto.
      + right; right. by eapply decimal_first.
    - done.
    - by intros ->; apply elem_of_nil in Hs0.
    - assert (DT_FLOAT_SIMPLE ∈ dts) as Hfl.
      { destruct (Hread s0 Hs0) as (t & Ht & c & Hr). destruct Hdec as (a & b & Hd & H8 & H3).
        destruct (decimal_types a b s0 Hd H8 H3) as [Hpre _].
        destruct (Hdts t Ht) as [->|[->| ->]]; [| |done].
        all: rewrite Hpre in Hr; [done|]; apply (bool_decide_unpack _); by vm_compute. }
      assert (DT_FLOAT_SIMPLE ∈ t1 :: ts) as Hfl' by by apply Hts.
      assert (page_kind t1 ts = PG_FLOAT) as Hkind.
      { assert (∀ t, t ∈ t1 :: ts → t = DT_DATE_SHORT ∨ t = DT_INT_SIMPLE ∨ t = DT_FLOAT_SIMPLE) as Hin
          by (intros t Ht%Hts; by apply Hdts).
        clear -Hfl' Hin Hnd. unfold page_kind. rewrite bool_decide_false.
        2:{ intros ->. destruct (Hin DT_STRING ltac:(left)) as [|[|]]; done. }
        assert (fold_left overlap ts (first_page_type t1) = PG_FLOAT) as ->; [|done].
        assert (∀ l p, NoDup l →
                  p = PG_FLOAT ∧ DT_FLOAT_SIMPLE ∉ l ∨ p = PG_INT ∧ DT_INT_SIMPLE ∉ l ∧ DT_FLOAT_SIMPLE ∈ l ∨
                    p = PG_DATE_SHORT ∧ DT_FLOAT_SIMPLE ∈ l →
                  (∀ t, t ∈ l → t = DT_DATE_SHORT ∨ t = DT_INT_SIMPLE ∨ t = DT_FLOAT_SIMPLE) →
                  fold_left overlap l p = PG_FLOAT) as Hfold.
        { clear. induction l as [|t l IH]; intros p Hnd Hp Hl; cbn [fold_left].
          - destruct Hp as [[? _]|[(_ & _ & H)|(_ & H)]]; [done|by apply elem_of_nil in H..].
          - apply list.NoDup_cons in Hnd as [Hni Hnd].
            apply IH; [done| |intros u Hu; apply Hl; by right]. rewrite !elem_of_cons in Hp.
            destruct (Hl t ltac:(left)) as [->|[->| ->]];
              destruct Hp as [(-> & Hp)|[(-> & Hp & Hp')|(-> & Hp)]];
              (match goal with |- context [overlap ?x ?y] =>
                 let v := eval vm_compute in (overlap x y) in change (overlap x y) with v end); naive_solver. }
        apply list.NoDup_cons in Hnd as [Hni Hnd]. rewrite elem_of_cons in Hfl'.
        apply Hfold; [done| |intros t Ht; apply Hin; by right].
        destruct (Hin t1 ltac:(left)) as [->|[->| ->]];
          (match goal with |- context [first_page_type ?y] =>
             let v := eval vm_compute in (first_page_type y) in change (first_page_type y) with v end); naive_solver. }
      rewrite Hkind in *. specialize (Hsort ltac:(done)).
      unfold import_page. rewrite Hcollect. cbn [res_bind]. rewrite Hheader. cbn [res_bind].
      unfold nrank in *.
      assert (DT_FLOAT_SIMPLE ∈ r'.*1) as Hin by (rewrite Hall; apply all_ntypes_all).
      apply elem_of_list_fmap in Hin as ([t0 n0] & E0 & Hin). cbn in E0. subst t0.
      apply elem_of_list_split in Hin as (pre & post & Er). 
      assert (0 < n0) as Hpos.
      { rewrite (Hcount DT_FLOAT_SIMPLE n0); [by apply count_pos|]. rewrite Er. apply elem_of_app. right. left. }
      assert (∀ x, x ∈ pre → isAnyFloat x.1 = false) as Hpre.
      { intros [u m] Hx. cbn [fst]. destruct (isAnyFloat u) eqn:Eu; [|done]. exfalso.
        unfold isAnyFloat in Eu. apply bool_decide_eq_true in Eu.
        assert (n0 <= m) as Hm.
        { apply elem_of_list_lookup in Hx as [i Hi]. apply (Hsort i (length pre) (u, m) (DT_FLOAT_SIMPLE, n0)).
          - by eapply lookup_lt_Some.
          - rewrite Er. by apply lookup_app_l_Some.
          - rewrite Er. rewrite lookup_app_r by lia. by rewrite Nat.sub_diag. }
        assert (u ∈ dts) as Hu.
        { apply count_pos. rewrite <- (Hcount u m); [lia|]. rewrite Er. apply elem_of_app. by left. }
        destruct (Hdts u Hu) as [->|[->| ->]].
        - by repeat (apply elem_of_cons in Eu as [?|Eu]; [done|]); apply elem_of_nil in Eu.
        - by repeat (apply elem_of_cons in Eu as [?|Eu]; [done|]); apply elem_of_nil in Eu.
        - assert (NoDup r'.*1) as Hnd' by (rewrite Hall; apply all_ntypes_NoDup).
          rewrite Er, fmap_app in Hnd'. apply list.NoDup_app in Hnd' as (_ & Hd & _).
          apply (Hd DT_FLOAT_SIMPLE); [|left]. apply elem_of_list_fmap. by exists (DT_FLOAT_SIMPLE, m). }
      assert (∀ s, s ∈ texts → dump_field fa false PG_FLOAT longest r' (Some s) = Ok (CFloat (f_parse fa s))) as Hdump.
      { intros s Hs. cbn [dump_field]. unfold read_by. rewrite Er.
        rewrite (first_fit_at _ pre (DT_FLOAT_SIMPLE, n0) post (CFloat (f_parse fa s))).
        - done.
        - intros x Hx. unfold only. by rewrite (Hpre x Hx).
        - unfold only. change (isAnyFloat (DT_FLOAT_SIMPLE, n0).1) with true. cbv iota. cbn [fst].
          destruct (Htexts s Hs) as [(n & H1 & H2)|(a & b & Hd & H8 & H3)].
          + apply (whole_types n s H1 H2).
          + apply (decimal_types a b s Hd H8 H3). }
      clear -Hdump. assert (dumpPageBody fa false PG_FLOAT longest r' (map Some texts)
        = Ok (map (λ s, CFloat (f_parse fa s)) texts)) as ->; [|done].
      induction texts as [|s texts IH]; [done|]. cbn [map dumpPageBody]. rewrite Hdump by left. cbn [res_bind].
      rewrite IH; [done|]. intros u Hu. apply Hdump. by right.
  Qed.

  (** ** Numbers with gaps *)
  Lemma int_cell n s : whole_text n s → - 2 ^ 63 < n < 2 ^ 63 → not_compact s → cell_of fa false DT_INT_SIMPLE (Some s) (CInt n).
  Proof.
    intros Hw Hr Hn. destruct (whole_types n s Hw Hr) as (Hi & _ & H1 & H2). exists s. split; [done|].
    split; [by apply Hi|]. apply upto_cases. repeat constructor; [done..|].
    destruct (R DT_DATE_SHORT s) as [c|x] eqn:E.
    - exfalso. eapply not_compact_short; [exact Hn|by eapply whole_chars|by eexists].
    - f_equal. eapply early_err; [|exact E]. apply (bool_decide_unpack _); by vm_compute.
  Qed.

  Lemma decimal_cell s : plain_decimal s → cell_of fa false DT_FLOAT_SIMPLE (Some s) (CFloat (f_parse fa s)).
  Proof.
    intros (a & b & Hd & H8 & H3). destruct (decimal_types a b s Hd H8 H3) as [Hpre Hok]. by exists s.
  Qed.
End Numbers.
