(** Decimal numbers in texts. *)
From Coq Require Import Lqa Qpower.
From Verif.Spec Require Export FloatText.
From Verif.Proof Require Import Binary64Proofs InferProofs GuessNumbers.
Local Open Scope Z_scope.

Lemma isDigit_iff c : isDigit c = true ↔ digit c.
Proof. split; [apply isDigit_spec|apply isDigit_spec]. Qed.
Lemma isDigit_false c : isDigit c = false ↔ ¬ digit c.
Proof. rewrite <- isDigit_iff. destruct (isDigit c); split; done. Qed.

Section Locale.
  Context (fa : float_arith) (am : bool).
  Notation sep := (if am then 44 else 46).
  Notation point := (if am then 46 else 44).

  Definition exp_step (e c : Z) : Z := if isDigit c then f_add fa (f_mul fa e (f_int fa 10)) (f_digit fa c) else e.
  Definition sign_step (o : option bool) (c : Z) : option bool := if isDigit c then o else Some (c =? 43).
  Definition int_step (v c : Z) : Z := f_add fa (f_mul fa v (f_int fa 10)) (f_digit fa c).
  Definition frac_step (x : Z * Z) (c : Z) : Z * Z :=
    let level := f_mul fa x.2 (f_tenth fa) in (f_add fa x.1 (f_mul fa (f_digit fa c) level), level).

  Lemma exp_run y v lvl o e st' :
    float_loop fa am y (FState v true lvl true o e) = Ok st' ↔
    Forall (λ c, digit c ∨ sign_mark c) y ∧ (o = None → ∀ c r, y = c :: r → sign_mark c) ∧
    st' = FState v true lvl true (fold_left sign_step y o) (fold_left exp_step y e).
  Proof.
    revert o e. induction y as [|c y IH]; intros o e.
    - cbn. split; [intros [= <-]; done|intros (_ & _ & ->); done].
    - cbn [float_loop fs_exp fs_frac fs_exp_sign fs_value fs_level fs_exponent fold_left].
      destruct (isDigit c) eqn:Hd.
      + assert (exp_step e c = f_add fa (f_mul fa e (f_int fa 10)) (f_digit fa c)) as -> by (unfold exp_step; by rewrite Hd).
        assert (sign_step o c = o) as -> by (unfold sign_step; by rewrite Hd).
        apply isDigit_iff in Hd. destruct o as [b|].
        * rewrite IH. split.
          -- intros (H1 & _ & ->). split; [constructor; [by left|done]|]. split; done.
          -- intros (H1 & _ & ->). inversion H1; subst. done.
        * split; [done|]. intros (_ & H2 & _). specialize (H2 eq_refl c y eq_refl). unfold digit, sign_mark in *. lia.
      + assert (exp_step e c = e) as -> by (unfold exp_step; by rewrite Hd).
        assert (sign_step o c = Some (c =? 43)) as -> by (unfold sign_step; by rewrite Hd).
        apply isDigit_false in Hd. cbn [negb andb]. rewrite orb_true_r. rewrite andb_false_r.
        destruct (((c =? 44) && am) || ((c =? 46) && negb am)) eqn:E1.
        { split; [done|]. intros (H1 & _). inversion H1 as [|? ? Hc _]; subst. exfalso. unfold digit, sign_mark in *.
          destruct Hc as [Hc|Hc]; [done|]. destruct (Z.eqb_spec c 44), (Z.eqb_spec c 46); first [lia|done]. }
        destruct (((c =? 46) && am) || ((c =? 44) && negb am)) eqn:E2.
        { split; [done|]. intros (H1 & _). inversion H1 as [|? ? Hc _]; subst. exfalso. unfold digit, sign_mark in *.
          destruct Hc as [Hc|Hc]; [done|]. destruct (Z.eqb_spec c 44), (Z.eqb_spec c 46); first [lia|done]. }
        destruct ((c =? 43) || (c =? 45)) eqn:E3; cbn [andb].
        * assert (sign_mark c) as Hc by (unfold sign_mark; apply orb_true_iff in E3 as [E|E]; apply Z.eqb_eq in E; tauto).
          rewrite IH. split.
          -- intros (H1 & _ & ->). split; [constructor; [by right|done]|]. split; [|done]. by intros _ c' r [= <- <-].
          -- intros (H1 & _ & ->). inversion H1; subst. done.
        * split; [done|]. intros (H1 & _). inversion H1 as [|? ? Hc _]; subst. exfalso. unfold sign_mark in Hc.
          destruct Hc as [Hc|[->| ->]]; done.
  Qed.

  Lemma frac_run s v lvl e st' :
    float_loop fa am s (FState v true lvl false None e) = Ok st' ↔
    ∃ ds x, s = ds ++ x ∧ Forall digit ds ∧
      let r := fold_left frac_step ds (v, lvl) in
      (x = [] ∧ st' = FState r.1 true r.2 false None e ∨
       ∃ c y, x = c :: y ∧ exponent_mark c ∧ float_loop fa am y (FState r.1 true r.2 true None e) = Ok st').
  Proof.
    cbv zeta. revert v lvl. induction s as [|c s IH]; intros v lvl.
    - cbn [float_loop]. split.
      + intros [= <-]. exists [], []. split; [done|]. split; [constructor|]. by left.
      + intros (ds & x & E & _ & H). symmetry in E. apply app_nil in E as [-> ->].
        destruct H as [[_ ->]|(c & y & E & _)]; [done|done].
    - cbn [float_loop fs_exp fs_frac fs_exp_sign fs_value fs_level fs_exponent].
      destruct (isDigit c) eqn:Hd.
      + apply isDigit_iff in Hd. rewrite IH. split.
        * intros (ds & x & -> & Hds & H). exists (c :: ds), x. split; [done|]. split; [by constructor|]. exact H.
        * intros (ds & x & E & Hds & H). destruct ds as [|c' ds].
          -- exfalso. cbn in E. subst x. destruct H as [[E _]|(c' & y & E & He & _)]; [done|]. injection E as <- <-.
             unfold digit, exponent_mark in *. lia.
          -- injection E as <- ->. exists ds, x. split; [done|]. inversion Hds; subst. split; [done|]. exact H.
      + apply isDigit_false in Hd. cbn [andb negb]. rewrite !orb_true_r, !andb_true_r.
        assert (∀ (P : Prop), (∃ ds x, c :: s = ds ++ x ∧ Forall digit ds ∧
            (x = [] ∧ st' = FState (fold_left frac_step ds (v, lvl)).1 true (fold_left frac_step ds (v, lvl)).2 false None e ∨
             ∃ c y, x = c :: y ∧ exponent_mark c ∧
               float_loop fa am y (FState (fold_left frac_step ds (v, lvl)).1 true (fold_left frac_step ds (v, lvl)).2 true None e) = Ok st')) →
            exponent_mark c ∧ float_loop fa am s (FState v true lvl true None e) = Ok st') as Hinv.
        { intros _ (ds & x & E & Hds & H). destruct ds as [|c' ds].
          - cbn in E. subst x. destruct H as [[E _]|(c' & y & E & He & H)]; [done|]. injection E as <- <-. done.
          - injection E as <- ->. inversion Hds; subst. done. }
        destruct (((c =? 44) && am) || ((c =? 46) && negb am)) eqn:E1.
        { split; [done|]. intros [He _]%(Hinv True). exfalso. unfold exponent_mark in *.
          destruct (Z.eqb_spec c 44), (Z.eqb_spec c 46); first [lia|done]. }
        destruct (((c =? 46) && am) || ((c =? 44) && negb am)) eqn:E2.
        { split; [done|]. intros [He _]%(Hinv True). exfalso. unfold exponent_mark in *.
          destruct (Z.eqb_spec c 44), (Z.eqb_spec c 46); first [lia|done]. }
        assert (toLower c =? 101 = true ↔ exponent_mark c) as Hl.
        { unfold toLower, exponent_mark. rewrite Z.eqb_eq. destruct (Z.leb_spec 65 c), (Z.leb_spec c 90); cbn [andb]; lia. }
        destruct (toLower c =? 101) eqn:E3.
        * split.
          -- intros H. exists [], (c :: s). split; [done|]. split; [constructor|]. right. exists c, s. split; [done|]. split; [by apply Hl|done].
          -- intros [_ H]%(Hinv True). done.
        * rewrite andb_false_r. split; [done|]. intros [He _]%(Hinv True). by apply Hl in He.
  Qed.

  Lemma exp_fold y e : fold_left exp_step y e = fold_left int_step (filter digit y) e.
  Proof.
    revert e. induction y as [|c y IH]; intros e; [done|]. cbn [fold_left]. rewrite IH, filter_cons. unfold exp_step.
    destruct (isDigit c) eqn:Hd.
    - apply isDigit_iff in Hd. by rewrite decide_True.
    - apply isDigit_false in Hd. by rewrite decide_False.
  Qed.
  Lemma sign_fold y o : Forall (λ c, digit c ∨ sign_mark c) y →
    fold_left sign_step y o = match list.last (filter sign_mark y) with Some c => Some (c =? 43) | None => o end.
  Proof.
    revert o. induction y as [|c y IH]; intros o Hy; [done|]. apply list.Forall_cons in Hy as [Hc Hy].
    cbn [fold_left]. rewrite (IH _ Hy), filter_cons. unfold sign_step.
    destruct (isDigit c) eqn:Hd.
    - apply isDigit_iff in Hd. rewrite decide_False; [done|]. unfold digit, sign_mark in *. lia.
    - apply isDigit_false in Hd. rewrite decide_True by tauto. rewrite last_cons. by destruct (list.last _).
  Qed.

  Lemma int_run s v lvl e st' :
    float_loop fa am s (FState v false lvl false None e) = Ok st' ↔
    ∃ u w, s = u ++ w ∧ Forall (λ c, digit c ∨ c = sep) u ∧ (∀ a b, u = a ++ sep :: b → 3 <= zlen (b ++ w)) ∧
      let v' := fold_left int_step (filter (λ c, c ≠ sep) u) v in
      (w = [] ∧ st' = FState v' false lvl false None e ∨
       ∃ r, w = point :: r ∧ float_loop fa am r (FState v' true lvl false None e) = Ok st').
  Proof.
    cbv zeta. revert v. induction s as [|c s IH]; intros v.
    - cbn [float_loop]. split.
      + intros [= <-]. exists [], []. split; [done|]. split; [constructor|]. split; [by intros [|] ? ?|]. by left.
      + intros (u & w & E & _ & _ & H). symmetry in E. apply app_nil in E as [-> ->].
        destruct H as [[_ ->]|(r & E & _)]; [done|done].
    - cbn [float_loop fs_exp fs_frac fs_exp_sign fs_value fs_level fs_exponent andb negb]. rewrite orb_false_r.
      destruct (isDigit c) eqn:Hd.
      + apply isDigit_iff in Hd. assert (c ≠ sep) as Hns by (unfold digit in Hd; destruct am; lia). rewrite IH. split.
        * intros (u & w & -> & Hu & Hs & H). exists (c :: u), w. split; [done|]. split; [constructor; [by left|done]|].
          split.
          -- intros [|a0 a] b E; [by injection E as -> ?|]. injection E as <- E. by eapply Hs.
          -- rewrite filter_cons_True by done. exact H.
        * intros (u & w & E & Hu & Hs & H). destruct u as [|c' u].
          -- exfalso. cbn in E. subst w. destruct H as [[E _]|(r & E & _)]; [done|]. injection E as -> ->.
             unfold digit in Hd. destruct am; lia.
          -- injection E as <- ->. exists u, w. split; [done|]. apply list.Forall_cons in Hu as [_ Hu]. split; [done|]. split.
             ++ intros a b ->. apply (Hs (c :: a) b). done.
             ++ rewrite filter_cons_True in H by done. exact H.
      + apply isDigit_false in Hd.
        assert (((c =? 44) && am) || ((c =? 46) && negb am) = bool_decide (c = sep)) as ->.
        { destruct (Z.eqb_spec c 44), (Z.eqb_spec c 46), am; cbn [andb orb negb]; symmetry;
            first [lia|apply bool_decide_eq_true; lia|apply bool_decide_eq_false; lia]. }
        assert (((c =? 46) && am) || ((c =? 44) && negb am) = bool_decide (c = point)) as ->.
        { destruct (Z.eqb_spec c 44), (Z.eqb_spec c 46), am; cbn [andb orb negb]; symmetry;
            first [lia|apply bool_decide_eq_true; lia|apply bool_decide_eq_false; lia]. }
        case_bool_decide as Hsep.
        * rewrite Hsep. assert (zlen (sep :: s) = 1 + zlen s) as Hlen by (cbn; lia).
          rewrite Hlen. destruct (Z.ltb_spec (1 + zlen s) 4) as [Hlt|Hge].
          -- split; [done|]. intros (u & w & E & Hu & Hs & H). exfalso. destruct u as [|c' u].
             ++ cbn in E. subst w. destruct H as [[E _]|(r & E & _)]; [done|]. injection E as E1 E2. destruct am; lia.
             ++ injection E as <- ->. specialize (Hs [] u eq_refl). lia.
          -- rewrite IH. split.
             ++ intros (u & w & -> & Hu & Hs & H). exists (sep :: u), w. split; [done|]. split; [constructor; [by right|done]|].
                split; [|rewrite filter_cons_False by (intros Hn; by apply Hn); exact H].
                intros [|a0 a] b E; [injection E as ->; lia|]. injection E as <- E. by eapply Hs.
             ++ intros (u & w & E & Hu & Hs & H). destruct u as [|c' u].
                ** exfalso. cbn in E. subst w. destruct H as [[E _]|(r & E & _)]; [done|]. injection E as E1 E2. destruct am; lia.
                ** injection E as <- ->. exists u, w. split; [done|]. apply list.Forall_cons in Hu as [_ Hu]. split; [done|]. split.
                   --- intros a b ->. apply (Hs (sep :: a) b). done.
                   --- rewrite filter_cons_False in H by (intros Hn; by apply Hn). exact H.
        * case_bool_decide as Hpt.
          -- rewrite Hpt. split.
             ++ intros H. exists [], (point :: s). split; [done|]. split; [constructor|]. split; [by intros [|] ? ?|].
                right. exists s. done.
             ++ intros (u & w & E & Hu & Hs & H). destruct u as [|c' u].
                ** cbn in E. subst w. destruct H as [[E _]|(r & E & H)]; [done|]. by injection E as ->.
                ** exfalso. injection E as <- ->. inversion Hu as [|? ? [Hc|Hc] _]; subst; [done|done].
          -- split; [done|]. intros (u & w & E & Hu & Hs & H). exfalso. destruct u as [|c' u].
             ++ cbn in E. subst w. destruct H as [[E _]|(r & E & H)]; [done|]. by injection E as -> ->.
             ++ injection E as <- ->. inversion Hu as [|? ? [Hc|Hc] _]; subst; done.
  Qed.

  (** what the machine computes for a decimal *)
  Definition machine_mantissa (p : decimal_number) : Z * Z :=
    fold_left frac_step (d_fraction p)
      (match d_whole p with [] => f_int fa 0 | c :: r => fold_left int_step r (f_digit fa c) end, f_int fa 1).
  Definition machine_value (p : decimal_number) : Z :=
    let m := f_mul fa (machine_mantissa p).1 (f_int fa (if d_negative p then -1 else 1)) in
    match d_exponent p with
    | None => f_mul fa m (f_int fa 1)
    | Some (negative, ds) =>
        f_mul fa m (f_pow10 fa (f_mul fa (fold_left int_step ds (f_int fa 0)) (f_int fa (if negative then -1 else 1))))
    end.

  (** from the point on *)
  Lemma frac_end r v lvl neg x :
    res_bind (float_loop fa am r (FState v true lvl false None (f_int fa 0))) (float_end fa neg) = Ok x ↔
    ∃ fr e, fraction_part point fr e (point :: r) ∧
      x = let m := f_mul fa (fold_left frac_step fr (v, lvl)).1 (f_int fa (if neg then -1 else 1)) in
          match e with
          | None => f_mul fa m (f_int fa 1)
          | Some (negative, ds) =>
              f_mul fa m (f_pow10 fa (f_mul fa (fold_left int_step ds (f_int fa 0)) (f_int fa (if negative then -1 else 1))))
          end.
  Proof.
    cbv zeta. split.
    - destruct (float_loop _ _ _ _) as [st|] eqn:Hl; [|done]. cbn [res_bind]. intros Hx.
      apply frac_run in Hl as (fr & t & -> & Hfr & H). cbv zeta in H. destruct H as [[-> ->]|(c & y & -> & Hc & H)].
      + cbn in Hx. injection Hx as <-. exists fr, None. split; [|done]. exists []. split; [done|]. split; [done|]. by left.
      + apply exp_run in H as (Hy & Hfirst & ->). cbn [float_end fs_value fs_exp fs_exp_sign fs_exponent] in Hx.
        rewrite (sign_fold _ _ Hy), exp_fold in Hx.
        destruct (list.last (filter sign_mark y)) as [sc|] eqn:Hlast; [|done]. injection Hx as <-.
        assert (sign_mark sc) as Hsc.
        { apply last_Some_elem_of in Hlast. by apply elem_of_list_filter in Hlast as [? _]. }
        exists fr, (Some (negb (sc =? 43), filter digit y)). split.
        * exists (c :: y). split; [done|]. split; [done|]. right. exists c, y, (negb (sc =? 43)), (filter digit y).
          split; [done|]. split; [done|]. split; [|done]. split; [done|]. split; [|split; [done|]].
          -- destruct y as [|c' y]; [done|]. exists c', y. split; [done|]. by apply (Hfirst eq_refl c' y).
          -- rewrite Hlast. destruct Hsc as [-> | ->]; done.
        * by destruct (sc =? 43).
    - intros (fr & e & (t & E & Hfr & H) & ->). injection E as ->.
      destruct H as [[-> ->]|(c & y & neg' & ds & -> & Hc & (Hy & (c' & r' & Hf & Hs) & -> & Hlast) & ->)].
      + rewrite app_nil_r.
        rewrite (proj2 (frac_run fr v lvl (f_int fa 0) (FState (fold_left frac_step fr (v, lvl)).1 true (fold_left frac_step fr (v, lvl)).2 false None (f_int fa 0)))).
        * done.
        * exists fr, []. rewrite app_nil_r. split; [done|]. split; [done|]. by left.
      + set (m := fold_left frac_step fr (v, lvl)).
        rewrite (proj2 (frac_run (fr ++ c :: y) v lvl (f_int fa 0)
          (FState m.1 true m.2 true (fold_left sign_step y None) (fold_left exp_step y (f_int fa 0))))).
        * cbn [res_bind float_end fs_exp fs_exp_sign fs_value fs_exponent]. rewrite (sign_fold _ _ Hy), exp_fold, Hlast.
          by destruct neg'.
        * exists fr, (c :: y). split; [done|]. split; [done|]. right. exists c, y. split; [done|]. split; [done|].
          apply exp_run. split; [done|]. split; [|done]. intros _ c0 r0 E. rewrite Hf in E. by injection E as <- <-.
  Qed.

  (** from the first digit on *)
  Lemma int_end s v neg x :
    res_bind (float_loop fa am s (FState v false (f_int fa 1) false None (f_int fa 0))) (float_end fa neg) = Ok x ↔
    ∃ u w fr e, s = u ++ w ∧ Forall (λ c, digit c ∨ c = sep) u ∧ (∀ a b, u = a ++ sep :: b → 3 <= zlen (b ++ w)) ∧
      (w = [] ∧ fr = [] ∧ e = None ∨ fraction_part point fr e w) ∧
      x = let m := f_mul fa (fold_left frac_step fr (fold_left int_step (filter (λ c, c ≠ sep) u) v, f_int fa 1)).1
                     (f_int fa (if neg then -1 else 1)) in
          match e with
          | None => f_mul fa m (f_int fa 1)
          | Some (negative, ds) =>
              f_mul fa m (f_pow10 fa (f_mul fa (fold_left int_step ds (f_int fa 0)) (f_int fa (if negative then -1 else 1))))
          end.
  Proof.
    split.
    - destruct (float_loop _ _ _ _) as [st|] eqn:Hl; [|done]. cbn [res_bind]. intros Hx.
      apply int_run in Hl as (u & w & -> & Hu & Hs & H). cbv zeta in H. destruct H as [[-> ->]|(r & -> & H)].
      + cbn in Hx. injection Hx as <-. exists u, [], [], None. split; [done|]. split; [done|]. split; [done|].
        split; [by left|done].
      + assert (res_bind (float_loop fa am r (FState (fold_left int_step (filter (λ c, c ≠ sep) u) v) true (f_int fa 1) false None (f_int fa 0))) (float_end fa neg) = Ok x) as Hr
          by (by rewrite H).
        apply frac_end in Hr as (fr & e & Hf & ->). exists u, (point :: r), fr, e.
        split; [done|]. split; [done|]. split; [done|]. split; [by right|done].
    - intros (u & w & fr & e & -> & Hu & Hs & [(-> & -> & ->)|Hf] & ->).
      + rewrite (proj2 (int_run (u ++ []) v (f_int fa 1) (f_int fa 0) (FState (fold_left int_step (filter (λ c, c ≠ sep) u) v) false (f_int fa 1) false None (f_int fa 0)))).
        * done.
        * exists u, []. split; [done|]. split; [done|]. split; [done|]. by left.
      + assert (∃ r, w = point :: r) as [r ->] by (destruct Hf as (? & -> & _); eauto).
        set (v' := fold_left int_step (filter (λ c, c ≠ sep) u) v) in *.
        pose proof (proj2 (frac_end r v' (f_int fa 1) neg _) (ex_intro _ fr (ex_intro _ e (conj Hf eq_refl)))) as Hr.
        destruct (float_loop fa am r _) as [st|] eqn:Hl; [|done].
        rewrite (proj2 (int_run (u ++ point :: r) v (f_int fa 1) (f_int fa 0) st)); [exact Hr|].
        exists u, (point :: r). split; [done|]. split; [done|]. split; [done|]. right. exists r. done.
  Qed.
End Locale.

Lemma local_decimal_eq am : local_decimal am = decimal_in (if am then 44 else 46) (if am then 46 else 44).
Proof. by destruct am. Qed.

Lemma float_local fa checks am s v :
  inferFloat fa checks false am s = Ok v ↔
  ∃ p, local_decimal am p (no_blanks s) ∧ v = machine_value fa p.
Proof.
  rewrite local_decimal_eq. unfold inferFloat.
  set (sep := if am then 44 else 46). set (point := if am then 46 else 44).
  generalize (no_blanks s). clear s. intros s. split.
  - destruct s as [|c0 s]; [done|].
    destruct (isDigit c0) eqn:Hd.
    { apply isDigit_iff in Hd. intros (u & w & fr & e & -> & Hu & Hs & Hw & ->)%int_end.
      assert (c0 ≠ sep) as Hns by (unfold digit in Hd; subst sep; destruct am; lia).
      exists (Decimal false (filter (λ c, c ≠ sep) (c0 :: u)) fr e). split.
      - exists [], (c0 :: u), w. cbn [d_negative d_whole d_fraction d_exponent]. split; [done|]. split; [by left|].
        split; [done|]. split; [constructor; [by left|done]|]. split; [done|]. split; [left; by exists c0, u|].
        split; [|done]. intros [|a0 a] b E; [by injection E as -> ?|]. injection E as <- E. by eapply Hs.
      - rewrite filter_cons_True by done. done. }
    destruct ((c0 =? 43) || (c0 =? 45)) eqn:Hsg.
    { destruct s as [|d s]; [by destruct checks|]. destruct (isDigit d) eqn:Hd'; [|done].
      apply isDigit_iff in Hd'. intros (u & w & fr & e & -> & Hu & Hs & Hw & ->)%int_end.
      assert (d ≠ sep) as Hns by (unfold digit in Hd'; subst sep; destruct am; lia).
      exists (Decimal (c0 =? 45) (filter (λ c, c ≠ sep) (d :: u)) fr e). split.
      - exists [c0], (d :: u), w. cbn [d_negative d_whole d_fraction d_exponent]. split; [done|].
        split; [right; exists c0; split; [done|]; unfold sign_mark; apply orb_true_iff in Hsg; rewrite !Z.eqb_eq in Hsg; done|].
        split; [rewrite Z.eqb_eq; split; [by intros -> |by intros [= ->]]|].
        split; [constructor; [by left|done]|]. split; [done|]. split; [left; by exists d, u|].
        split; [|done]. intros [|a0 a] b E; [by injection E as -> ?|]. injection E as <- E. by eapply Hs.
      - rewrite filter_cons_True by done. done. }
    assert (((c0 =? 46) && am) || ((c0 =? 44) && negb am) = bool_decide (c0 = point)) as ->.
    { subst point. destruct (Z.eqb_spec c0 44), (Z.eqb_spec c0 46), am; cbn [andb orb negb]; symmetry;
        first [lia|apply bool_decide_eq_true; lia|apply bool_decide_eq_false; lia]. }
    case_bool_decide as Hpt; [|done]. subst c0. intros (fr & e & Hf & ->)%frac_end.
    exists (Decimal false [] fr e). split; [|done].
    exists [], [], (point :: s). cbn [d_negative d_whole d_fraction d_exponent]. split; [done|]. split; [by left|].
    split; [done|]. split; [constructor|]. split; [done|]. split; [by right|]. split; [by intros [|] ? ?|]. by right.
  - intros (p & (sg & u & w & -> & Hsg & Hneg & Hu & Hwh & Hfirst & Hs & Hw) & ->).
    destruct p as [neg wh fr e]. cbn [d_negative d_whole d_fraction d_exponent] in *. subst wh.
    destruct Hfirst as [(c & r & -> & Hc)|(-> & -> & Hne)].
    + assert (c ≠ sep) as Hns by (unfold digit in Hc; subst sep; destruct am; lia).
      assert (res_bind (float_loop fa am (r ++ w) (FState (f_digit fa c) false (f_int fa 1) false None (f_int fa 0)))
                (float_end fa neg) = Ok (machine_value fa (Decimal neg (filter (λ c, c ≠ sep) (c :: r)) fr e))) as Hr.
      { apply int_end. exists r, w, fr, e. split; [done|]. apply list.Forall_cons in Hu as [_ Hu]. split; [done|]. split.
        - intros a b ->. apply (Hs (c :: a) b). done.
        - split; [done|]. rewrite filter_cons_True by done. done. }
      destruct Hsg as [->|(c0 & -> & Hc0)].
      * assert (neg = false) as -> by (destruct neg; [|done]; discriminate (proj1 Hneg eq_refl)).
        cbn [app]. rewrite (proj2 (isDigit_iff c) Hc). exact Hr.
      * cbn [app]. assert (isDigit c0 = false) as -> by (apply isDigit_false; unfold digit, sign_mark in *; lia).
        assert ((c0 =? 43) || (c0 =? 45) = true) as -> by (destruct Hc0 as [-> | ->]; done).
        rewrite (proj2 (isDigit_iff c) Hc).
        assert ((c0 =? 45) = neg) as ->; [|exact Hr].
        destruct (Z.eqb_spec c0 45) as [->|Hn].
        -- symmetry. by apply Hneg.
        -- destruct neg; [|done]. pose proof (proj1 Hneg eq_refl) as E. by injection E as E.
    + destruct Hw as [(-> & _)|Hf]; [done|].
      assert (∃ r, w = point :: r) as [r ->] by (destruct Hf as (? & -> & _); eauto).
      assert (neg = false) as -> by (destruct neg; [|done]; discriminate (proj1 Hneg eq_refl)).
      cbn [app]. assert (isDigit point = false) as -> by (subst point; by destruct am).
      assert ((point =? 43) || (point =? 45) = false) as -> by (subst point; by destruct am).
      assert (((point =? 46) && am) || ((point =? 44) && negb am) = true) as -> by (subst point; by destruct am).
      apply frac_end. exists fr, e. done.
Qed.
