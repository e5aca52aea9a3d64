(** Columns of one kind of texts. *)
From Coq Require Import String ZifyBool.
From Verif.Spec Require Import GuessedPage Counts.
From Verif.Proof Require Import RankProofs InferProofs GuessProofs.
Local Open Scope Z_scope.

Section Kinds.
  Context (fa : float_arith) (checks : bool).
  Notation R := (read fa checks).

  (** in a page of objects the types seen are tried first *)
  Lemma read_seen dts (r : nrank) s :
    nrank_ok dts r → (∃ t, t ∈ dts ∧ readable R t s) →
    (∀ t x, t ∈ dts → R t s = Err x → x = ValueError) →
    ∃ t c, read_by (λ t, R t s) r = Ok c ∧ t ∈ dts ∧ R t s = Ok c.
  Proof.
    intros (Hp & Hc & Hs) (t & Ht & c & Htc) Hplain. unfold nrank in *.
    assert (∀ x, x ∈ r → 0 <= x.2) as H0.
    { intros [u n] Hin. apply Hc in Hin. subst n. cbn. unfold count_if. lia. }
    assert (t ∈ r.*1) as Hin by (rewrite Hp; apply all_ntypes_all).
    apply elem_of_list_fmap in Hin as ([t' n] & E & Hin). cbn [fst] in E. subst t'.
    assert (0 < n) as Hn by (rewrite (Hc _ _ Hin); by apply count_pos).
    destruct (first_fit_find (λ t, R t s) r 0) as (k & e & c' & Hfind & Hc' & Hff).
    { exists (t, n). cbn [fst]. by rewrite Htc. }
    apply list_find_Some in Hfind as (Hk & _ & Hbefore).
    apply elem_of_list_lookup in Hin as [i Hi].
    assert (k <= i)%nat as Hki.
    { destruct (decide (i < k)%nat) as [Hlt|]; [|lia]. exfalso. apply (Hbefore i (t, n) Hi Hlt). cbn [fst].
      by rewrite Htc. }
    assert (∀ j x, (j <= k)%nat → r !! j = Some x → x.1 ∈ dts) as Hseen.
    { intros j [u m] Hj Hx. apply count_pos. cbn [fst]. rewrite <- (Hc u m) by (by eapply elem_of_list_lookup_2).
      pose proof (H0 (u, m) ltac:(by eapply elem_of_list_lookup_2)) as Hm. cbn [snd] in Hm.
      destruct (decide (j = i)) as [->|Hne]; [rewrite Hi in Hx; by injection Hx as -> ->|].
      pose proof (Hs j i _ _ ltac:(lia) Hx Hi) as Hle.
      destruct (decide (m = 0)) as [->|]; [|lia].
      assert (rkey (u, 0) = 0) as Hz by (by apply rkey_zero). rewrite Hz in Hle.
      assert (rkey (t, n) = 0) as Hz2 by (pose proof (rkey_nonneg (t, n) ltac:(cbn; lia)); lia).
      apply rkey_zero in Hz2; cbn in *; lia. }
    exists e.1, c'. unfold read_by. rewrite Hff.
    - split_and!; [done| |done]. by eapply (Hseen k).
    - intros j x y Hj Hx. apply Hplain. eapply (Hseen j); [lia|done].
  Qed.

  Lemma first_type_at s T c :
    R T s = Ok c → (∀ u, u ∈ upto T all_ntypes → R u s = Err ValueError) →
    first_type fa checks s T ∧ ∀ t, first_type fa checks s t → t = T.
  Proof.
    intros Hc Hpre.
    assert (∃ post, all_ntypes = upto T all_ntypes ++ T :: post) as [post Hall].
    { destruct (elem_of_list_split all_ntypes T (all_ntypes_all T)) as (pre & post & Hall). exists post.
      by rewrite <- (types_before pre T post Hall). }
    assert (first_type fa checks s T) as HT.
    { exists (upto T all_ntypes), post. split_and!; [done|by rewrite Hc|]. intros u Hu. by rewrite Hpre. }
    split; [done|]. intros t (pre & post' & Hall' & Hok & Hpre').
    pose proof (types_before _ _ _ Hall') as ->.
    assert (T ∉ upto t all_ntypes) as H1. { intros H%Hpre'. by rewrite Hc in H. }
    assert (t ∉ upto T all_ntypes) as H2. { intros H%Hpre. by rewrite H in Hok. }
    set (a := length (upto t all_ntypes)). set (b := length (upto T all_ntypes)).
    assert (all_ntypes !! a = Some t) as Ha.
    { rewrite Hall' at 1. rewrite lookup_app_r by lia. by rewrite Nat.sub_diag. }
    assert (all_ntypes !! b = Some T) as Hb.
    { rewrite Hall at 1. rewrite lookup_app_r by lia. by rewrite Nat.sub_diag. }
    destruct (Nat.lt_trichotomy a b) as [Hlt|[Heq|Hgt]].
    - exfalso. apply H2. rewrite Hall, lookup_app_l in Ha by lia. by eapply elem_of_list_lookup_2.
    - rewrite Heq in Ha. congruence.
    - exfalso. apply H1. rewrite Hall', lookup_app_l in Hb by lia. by eapply elem_of_list_lookup_2.
  Qed.

  Lemma Forall2_unique {A B} (P : A → B → Prop) (Q : A → B → Prop) l k k' :
    Forall2 P l k → Forall2 Q l k' → (∀ x y y', P x y → Q x y' → y = y') → k = k'.
  Proof.
    intros H. revert k'. induction H as [|x y l k Hxy _ IH]; intros k' Hk' Hf; inversion Hk'; subst; [done|].
    f_equal; [by eapply Hf|by apply IH].
  Qed.


  (** a cell of type [T], the first type that reads it *)
  Definition cell_of (T : ntype) (f : option (list Z)) (c : cell) : Prop :=
    ∃ s, f = Some s ∧ R T s = Ok c ∧ ∀ u, u ∈ upto T all_ntypes → R u s = Err ValueError.

  Lemma blank_types T : T ≠ DT_NONE → T ≠ DT_STRING → R T [] = Err ValueError.
  Proof. by destruct T. Qed.

  Lemma import_kind T col cells :
    is_num T = false ∨ (∃ f, f ∈ col ∧ blank f) → T ≠ DT_STRING → T ≠ DT_NONE → col ≠ [] →
    Forall2 (λ f c, blank f ∧ c = CNone ∨ cell_of T f c) col cells →
    import_page fa checks col = Ok (PG_OBJECT, cells).
  Proof.
    intros Hnum Hstr Hnone Hne Hcells.
    assert (DT_NONE ∈ upto T all_ntypes) as HnoneT by (apply (bool_decide_unpack _); by destruct T).
    assert (∀ f, f ∈ col → ∃ c, blank f ∧ c = CNone ∨ cell_of T f c) as Hcell.
    { intros f [i Hi]%elem_of_list_lookup. destruct (Forall2_lookup_l _ _ _ _ _ Hcells Hi) as (c & _ & Hc). by exists c. }
    assert (∀ f, f ∈ col → field_text f = [] ∨ ∃ c, cell_of T f c) as Hcell'.
    { intros f Hf. destruct (Hcell f Hf) as [c [[[->| ->] _]|Hc]]; eauto. }
    destruct (first_type_at [] DT_NONE CNone eq_refl) as [HN1 HN2].
    { intros u Hu. by apply elem_of_nil in Hu. }
    assert (∀ f t, f ∈ col → first_type fa checks (field_text f) t → t = DT_NONE ∧ field_text f = [] ∨ t = T) as Hfirst.
    { intros f t Hf Ht. destruct (Hcell' f Hf) as [E|(c & s & -> & Hc & Hpre)].
      - left. rewrite E in Ht. split; [by apply HN2|done].
      - right. by apply (first_type_at s T c Hc Hpre). }
    destruct (collect_ok fa checks (λ t, t = DT_NONE ∨ t = T) col [] newRank 1)
      as (dts & longest & r & Hcollect & Hinv & _ & HF).
    - apply newRank_inv.
    - intros f Hf u x Hu Hx. destruct (Hcell' f Hf) as [E|(c & s & -> & Hc & Hpre)].
      + rewrite E in *. destruct Hu as [[->| ->]|(t & Ht & Hin)]; [done| |].
        * rewrite blank_types in Hx by done. congruence.
        * apply HN2 in Ht. subst t. by apply elem_of_nil in Hin.
      + change (field_text (Some s)) with s in *. destruct Hu as [[->| ->]|(t & Ht & Hin)].
        * rewrite Hpre in Hx by done. congruence.
        * by rewrite Hc in Hx.
        * apply (first_type_at s T c Hc Hpre) in Ht. subst t. rewrite Hpre in Hx by done. congruence.
    - intros f t Hf Ht. destruct (Hfirst f t Hf Ht) as [[-> _]| ->]; auto.
    - intros t Ht. by apply elem_of_nil in Ht.
    - cbn [app] in Hinv.
      assert (∀ dt, dt ∈ dts → dt = DT_NONE ∨ dt = T) as Hdts.
      { intros dt [i Hi]%elem_of_list_lookup. by destruct (Forall2_lookup_r _ _ _ _ _ HF Hi) as (f & _ & H & _). }
      assert (∀ f, f ∈ col → ∃ dt, dt ∈ dts ∧ readable R dt (field_text f)) as Hread.
      { intros f [i Hi]%elem_of_list_lookup. destruct (Forall2_lookup_l _ _ _ _ _ HF Hi) as (dt & Hd & _ & H1 & _).
        exists dt. split; [|done]. by eapply elem_of_list_lookup_2. }
      destruct (header_ok dts r Hinv) as (t1 & ts & r' & Hts & Hheader & Hok & _ & _ & _).
      { intros ->. inversion HF. subst col. done. }
      { exists DT_STRING. intros [|]%Hdts; congruence. }
      assert (page_kind t1 ts = PG_OBJECT) as Hkind.
      { assert (t1 ≠ DT_STRING) as H1.
        { intros ->. destruct (Hdts DT_STRING) as [|]; [apply Hts; left|done|congruence]. }
        assert (seen_page t1 ts ≠ PG_INT ∧ seen_page t1 ts ≠ PG_FLOAT) as [H2 H3].
        { destruct (is_num T) eqn:En.
          - destruct Hnum as [|(f & Hf & Hblank)]; [done|].
            assert (DT_NONE ∈ t1 :: ts) as Hn.
            { apply Hts. destruct (Hread f Hf) as (dt & Hd & c & Hc).
              replace (field_text f) with (@nil Z) in Hc by (by destruct Hblank as [->| ->]).
              destruct (Hdts dt Hd) as [->| ->]; [done|]. by rewrite blank_types in Hc. }
            destruct (seen_apart t1 ts) as [Hi Hfl].
            { intros H%Hts%Hdts. destruct H as [|<-]; [congruence|done]. }
            split; intros E; [specialize (Hi E _ Hn)|specialize (Hfl E _ Hn)]; done.
          - apply seen_no_numbers. intros t Ht%Hts%Hdts. by destruct Ht as [->| ->]. }
        pose proof (page_kind_unicode t1 ts) as Hu. revert Hu. unfold page_kind.
        rewrite bool_decide_false by done. fold (seen_page t1 ts). destruct (seen_page t1 ts); tauto. }
      rewrite Hkind in *. unfold import_page. rewrite Hcollect. cbn [res_bind]. rewrite Hheader. cbn [res_bind].
      destruct (dumpPageBody_ok fa checks PG_OBJECT longest r' col
                  (λ f x, field_text f = [] ∧ x = CNone ∨ cell_of T f x)) as (cs & Hcs & HQ).
      { intros f Hf. destruct f as [s|]; cbn [dump_field field_text default].
        2:{ exists CNone. split; [done|]. by left. }
        destruct (read_seen dts r' s (Hok eq_refl) (Hread _ Hf)) as (t & c & Hc & Htd & HR).
        { intros u x Hu Hx. destruct (Hcell' _ Hf) as [E|(c & s' & [= <-] & Hc & Hpre)].
          - change (s = []) in E. subst s. destruct (Hdts u Hu) as [->| ->]; [done|].
            rewrite blank_types in Hx by done. congruence.
          - destruct (Hdts u Hu) as [->| ->]; [|congruence]. rewrite Hpre in Hx by done. congruence. }
        exists c. split; [done|]. destruct (Hcell' _ Hf) as [E|(c' & s' & [= <-] & Hc' & Hpre)].
        - left. change (s = []) in E. subst s. split; [done|].
          destruct (Hdts t Htd) as [->| ->]; [by vm_compute in HR; injection HR as <-|]. by rewrite blank_types in HR.
        - right. exists s. split_and!; [done| |done]. destruct (Hdts t Htd) as [->| ->]; [|done].
          by rewrite Hpre in HR. }
      rewrite Hcs. cbn [res_map]. f_equal. f_equal.
      eapply Forall2_unique; [exact HQ|exact Hcells|].
      intros f x y [[E ->]|(s & -> & Hx & Hpre)] [[Hb ->]|(s' & Es & Hy & Hpre')].
      + done.
      + subst f. change (s' = []) in E. subst s'. by rewrite blank_types in Hy.
      + destruct Hb as [|[= ->]]; [done|]. by rewrite blank_types in Hx.
      + injection Es as ->. congruence.
  Qed.

  (** ** What is not read *)
  Lemma digit_not_word c r : digit c → R DT_NONE (c :: r) = Err ValueError ∧ R DT_BOOL (c :: r) = Err ValueError.
  Proof.
    intros Hc. unfold digit in Hc. cbn [read]. split.
    - unfold inferNone. rewrite bool_decide_false; [done|]. intros H.
      repeat (apply elem_of_cons in H as [E|H]; [try done; injection E as E _; vm_compute in E; lia|]).
      by apply elem_of_nil in H.
    - unfold inferBool. cbn [map]. assert (toLower c = c) as ->.
      { unfold toLower. rewrite (proj2 (Z.leb_gt 65 c)) by lia. done. }
      rewrite !bool_decide_false; [done| |]; intros E; injection E as E _; vm_compute in E; lia.
  Qed.

  (** digits and then something else *)
  Definition stop (x : Z) : Prop := ¬ digit x ∧ x ≠ 44 ∧ x ≠ 46 ∧ x ≠ 95 ∧ x ≠ 101 ∧ x ≠ 69.

  Lemma float_digits_stop b g x rest : Forall digit g → stop x →
    float_digits b (g ++ x :: rest) = (length g, x :: rest).
  Proof.
    intros Hg (Hx & _ & _ & H95 & _). revert b. induction Hg as [|c g Hc _ IH]; intros b; cbn [app float_digits].
    - apply isDigit_false in Hx. rewrite Hx. by rewrite (proj2 (Z.eqb_neq _ _)), andb_false_r.
    - apply isDigit_spec in Hc. rewrite Hc. by rewrite IH.
  Qed.

  Lemma float_loop_stop am g x rest st : Forall digit g → stop x → fs_frac st = false → fs_exp st = false →
    float_loop fa am (g ++ x :: rest) st = Err ValueError.
  Proof.
    intros Hg (Hx & H44 & H46 & _). revert st. induction Hg as [|c g Hc _ IH]; intros st Hf He; cbn [app float_loop].
    - apply isDigit_false in Hx. rewrite Hx. rewrite !(proj2 (Z.eqb_neq x _)) by done. rewrite Hf. done.
    - apply isDigit_spec in Hc. rewrite Hc, He, Hf. by apply IH.
  Qed.

  Lemma stopped s g x rest : no_blanks s = g ++ x :: rest → g ≠ [] → Forall digit g → zlen g <= 18 → stop x →
    ∀ t, is_num t = true → R t s = Err ValueError.
  Proof.
    intros Hs Hne Hg Hl Hx. destruct g as [|c g]; [done|]. apply list.Forall_cons in Hg as [Hc Hg].
    pose proof Hx as (Hxd & H44 & H46 & H95 & H101 & H69).
    pose proof Hc as Hcd. apply isDigit_spec in Hcd. unfold digit in Hc.
    assert (∀ am, inferInt checks false am s = Err ValueError) as Hint.
    { intros am. unfold inferInt. rewrite Hs. cbn [app]. rewrite Hcd.
      apply int_loop_stop; [done|done| |lia|].
      - unfold thousands. by destruct am.
      - pose proof (digits_bound g Hg) as Hb. rewrite cons_length in Hl.
        assert (10 ^ zlen g <= 10 ^ 17) by (apply Z.pow_le_mono_r; lia). nia. }
    assert (∀ am, inferFloat fa checks false am s = Err ValueError) as Hfloat.
    { intros am. unfold inferFloat. rewrite Hs. cbn [app]. rewrite Hcd.
      by rewrite float_loop_stop. }
    assert (inferInt checks true false s = Err ValueError) as Hsi.
    { unfold inferInt. rewrite Hs. cbn [app]. unfold parseInt.
      rewrite !(proj2 (Z.eqb_neq c _)) by lia. unfold parse_uint. rewrite Hcd. cbn [parse_digits]. rewrite Hcd.
      by rewrite parse_digits_stop. }
    assert (inferFloat fa checks true false s = Err ValueError) as Hsf.
    { unfold inferFloat. rewrite Hs. cbn [app]. unfold parseFloat_ok.
      rewrite !(proj2 (Z.eqb_neq c _)) by lia. cbn [orb map].
      assert (toLower c = c) as ->.
      { unfold toLower. rewrite (proj2 (Z.leb_gt 65 c)) by lia. done. }
      rewrite !bool_decide_false by (intros E; injection E as E _; vm_compute in E; lia). cbn [orb].
      cbn [float_digits]. rewrite Hcd, float_digits_stop by done.
      rewrite (proj2 (Z.eqb_neq x 46)) by done. unfold float_exponent.
      destruct rest; [by rewrite andb_false_r|]. rewrite !(proj2 (Z.eqb_neq x _)) by done. by rewrite andb_false_r. }
    intros t Ht. destruct t; try done; cbn [read]; by rewrite ?Hint, ?Hfloat, ?Hsi, ?Hsf.
  Qed.

  Lemma no_blanks_digits g s : Forall digit g → no_blanks (g ++ s) = g ++ no_blanks s.
  Proof.
    intros Hg. unfold no_blanks. rewrite list.filter_app. f_equal.
    apply list_filter_all. eapply list.Forall_impl; [exact Hg|]. intros c Hc. unfold digit in Hc. lia.
  Qed.

  (** ** Dates *)
  Lemma words_types sep s w0 w1 w2 :
    s = w0 ++ [sep] ++ w1 ++ [sep] ++ w2 → sep = 45 ∨ sep = 47 →
    Forall digit w0 → w0 ≠ [] → (length w0 <= 4)%nat → ∀ more,
    R DT_NONE (s ++ more) = Err ValueError ∧ R DT_BOOL (s ++ more) = Err ValueError ∧
    R DT_DATE_SHORT (s ++ more) = Err ValueError ∧ (∀ t, is_num t = true → R t (s ++ more) = Err ValueError).
  Proof.
    intros -> Hsep Hw0 Hne Hl more.
    assert (date_separator sep) as Hds by (unfold date_separator; lia).
    destruct w0 as [|c g]; [done|]. pose proof Hw0 as [Hc Hg]%list.Forall_cons.
    rewrite <- app_assoc. cbn [app]. destruct (digit_not_word c (g ++ sep :: (w1 ++ sep :: w2) ++ more) Hc) as [H1 H2].
    split_and!; [done|done| |].
    - cbn [read]. unfold inferDate. destruct (_ || _); [done|]. unfold parseDateWords.
      destruct (negb _); [done|].
      change (c :: g ++ sep :: (w1 ++ sep :: w2) ++ more) with ((c :: g) ++ sep :: (w1 ++ sep :: w2) ++ more).
      rewrite has_tokens_take by (done || lia). done.
    - apply (stopped _ (c :: g) sep (no_blanks ((w1 ++ sep :: w2) ++ more))).
      + change (c :: g ++ sep :: (w1 ++ sep :: w2) ++ more) with ((c :: g) ++ sep :: (w1 ++ sep :: w2) ++ more).
        rewrite no_blanks_digits by done. f_equal. unfold no_blanks. rewrite filter_cons_True by lia. done.
      + done.
      + done.
      + lia.
      + unfold stop, digit. lia.
  Qed.


  Lemma upto_cases T (P : ntype → Prop) :
    (∀ u, u ∈ upto T all_ntypes → P u) ↔ Forall P (upto T all_ntypes).
  Proof. by rewrite list.Forall_forall. Qed.

  Lemma date_cell style sep d s :
    date_text style sep d s → zlen s <= 10 → iso_or_day_first style sep → valid_ymd d → ¬ late_december style d →
    cell_of DT_DATE (Some s) (CDate d).
  Proof.
    intros Ht Hl [Hst Hsep] Hv Hd.
    assert (date_separator sep) as Hds by (unfold date_separator; lia).
    exists s. split; [done|]. split.
    { cbn [read]. pose proof (infer_date checks style sep d s Ht Hl Hds Hv Hd) as H.
      destruct Hst as [->| ->]; cbn [compact month_first] in H; by rewrite H. }
    destruct (text_words style sep d s Ht Hl Hv ltac:(by destruct Hst as [->| ->]) Hd)
      as (w0 & w1 & w2 & Es & D0 & D1 & D2 & N0 & N1 & N2 & L0 & _ & _ & _).
    destruct (words_types sep s w0 w1 w2 Es Hsep D0 N0 L0 []) as (H1 & H2 & H3 & H4).
    rewrite app_nil_r in *.
    destruct (parse_three w0 w1 w2 sep DONT_CARE true D0 D1 D2 N0 N1 N2 L0 Hds ltac:(done) 32 []
                ltac:(by constructor; [|constructor]) ltac:(lia) ltac:(by left)) as [Hp _].
    rewrite <- Es in Hp.
    assert (∀ am, inferDatetime checks am s = Err ValueError) as Hdt.
    { intros am. unfold inferDatetime. destruct (_ || _); [done|]. by rewrite Hp. }
    apply upto_cases. change (upto DT_DATE all_ntypes) with (take 11 all_ntypes). cbn [take all_ntypes].
    repeat apply list.Forall_cons_2; try apply list.Forall_nil_2; try done; try (by apply H4); cbn [read]; by rewrite Hdt.
  Qed.

  (** ** Moments *)
  Lemma datetime_cell style sep d us s :
    datetime_text style sep d us s → iso_or_day_first style sep → valid_ymd d → ¬ late_december style d →
    ∃ d' us', moment d us d' us' ∧ cell_of DT_DATETIME (Some s) (CDateTime d' us').
  Proof.
    intros Ht [Hst Hsep] Hv Hd.
    assert (date_separator sep) as Hds by (unfold date_separator; lia).
    destruct (infer_datetime_ok checks style sep d us s Ht Hds Hv Hd) as (d' & us' & Hm & H).
    exists d', us'. split; [done|]. exists s. split; [done|]. split.
    { cbn [read]. destruct Hst as [->| ->]; cbn [month_first] in H; by rewrite H. }
    destruct Ht as (date & mark & time & Hdate & Hl & Htime & -> & _ & _).
    destruct (text_words style sep d date Hdate Hl Hv ltac:(by destruct Hst as [->| ->]) Hd)
      as (w0 & w1 & w2 & Es & D0 & D1 & D2 & N0 & N1 & N2 & L0 & _ & _ & _).
    destruct (words_types sep date w0 w1 w2 Es Hsep D0 N0 L0 (mark ++ time)) as (H1 & H2 & H3 & H4).
    apply upto_cases. change (upto DT_DATETIME all_ntypes) with (take 9 all_ntypes). cbn [take all_ntypes].
    repeat apply list.Forall_cons_2; try apply list.Forall_nil_2; try done; by apply H4.
  Qed.

  (** ** Times *)
  Lemma clock_shape us s : clock us s → ∃ a b c d r, s = a :: b :: 58 :: c :: d :: r ∧ digit a ∧ digit b ∧ digit c ∧ digit d ∧
    Forall (λ c, 0 <= c <= 127) s.
  Proof.
    assert (∀ g, Forall digit g → Forall (λ c, 0 <= c <= 127) g) as Hasc.
    { intros g Hg. eapply list.Forall_impl; [exact Hg|]. intros x Hx. unfold digit in Hx. lia. }
    intros H. destruct H as [h m hs ms Hh Hm|h m s hs ms ss Hh Hm Hs|h m s f hs ms ss fs Hh Hm Hs Hf|h m s f hs ms ss fs Hh Hm Hs Hf];
      apply two_digits in Hh as (a & b & -> & _ & _ & Ha & Hb); apply two_digits in Hm as (c & d & -> & _ & _ & Hc & Hd);
      exists a, b, c, d; eexists; (split; [reflexivity|]); split_and!; try done;
      repeat (first [apply list.Forall_app; split | apply list.Forall_cons_2]); try apply list.Forall_nil_2;
      try (unfold digit in *; lia); try apply Hasc; try apply Hs; try apply Hf.
  Qed.

  Lemma time_cell us local t off z : clock local t → zone off z → us = local - off →
    cell_of DT_TIME (Some (t ++ z)) (CTime us).
  Proof.
    intros Ht Hz ->. exists (t ++ z). split; [done|]. split.
    { cbn [read]. rewrite (infer_time_text (local - off) (t ++ z)); [done|]. left. by exists local, t, off, z. }
    destruct (clock_shape _ _ Ht) as (a & b & c & d & r & -> & Ha & Hb & Hc & Hd & _).
    cbn [app]. destruct (digit_not_word a (b :: 58 :: c :: d :: r ++ z) Ha) as [H1 H2].
    assert (∀ short am, inferDate checks short am (a :: b :: 58 :: c :: d :: r ++ z) = Err ValueError) as Hdate.
    { intros short am. unfold inferDate. destruct (_ || _); [done|]. unfold parseDateWords. destruct (negb _); [done|].
      cbn [take has_tokens]. apply isDigit_spec in Ha, Hb. rewrite Ha, Hb. done. }
    assert (∀ am, inferDatetime checks am (a :: b :: 58 :: c :: d :: r ++ z) = Err ValueError) as Hdt.
    { intros am. unfold inferDatetime. destruct (_ || _); [done|]. unfold parseDateWords. destruct (negb _); [done|].
      cbn [take has_tokens]. pose proof Ha as Ha'. pose proof Hb as Hb'.
      apply isDigit_spec in Ha', Hb', Hc, Hd. rewrite Ha', Hb', Hc, Hd.
      change (isDigit 58) with false. cbn [accepted_token orb andb res_bind Z.eqb Pos.eqb].
      change (has_tokens true (take 0 (r ++ z))) with (@Ok bool false). cbn [res_bind].
      case_match; [done|]. cbn [res_bind]. destruct (drop 8 _) as [|x y]; [done|].
      case_match; [|done]. unfold wordsToDate, guessDate.
      change (zlen [a; b; 58; c] =? 4) with true. cbv iota.
      unfold digit in *. unfold parseInt. rewrite !(proj2 (Z.eqb_neq a _)) by lia. unfold parse_uint. rewrite Ha'.
      cbn [parse_digits]. rewrite Ha', Hb'. done. }
    assert (∀ t, is_num t = true → R t (a :: b :: 58 :: c :: d :: r ++ z) = Err ValueError) as Hnum.
    { assert (Forall digit [a; b]) as Hab.
      { constructor; [done|]. constructor; [done|]. constructor. }
      apply (stopped _ [a; b] 58 (no_blanks (c :: d :: r ++ z))).
      - change (a :: b :: 58 :: c :: d :: r ++ z) with ([a; b] ++ 58 :: c :: d :: r ++ z).
        by rewrite no_blanks_digits.
      - done.
      - done.
      - cbn. lia.
      - unfold stop, digit. lia. }
    apply upto_cases. change (upto DT_TIME all_ntypes) with (take 13 all_ntypes). cbn [take all_ntypes].
    repeat apply list.Forall_cons_2; try apply list.Forall_nil_2; try done; try (by apply Hnum); cbn [read];
      by rewrite ?Hdate, ?Hdt.
  Qed.
End Kinds.
