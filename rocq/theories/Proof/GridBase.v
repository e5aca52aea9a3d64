(** The dictionaries of [pivot]. *)
From Verif.Spec Require Export Grid.
From Verif.Model Require Export PivotGrid.
From Verif.Proof Require Export DictLemmas TableBase NamesProofs.
Local Open Scope Z_scope.

Section grid.
  Context {A E T : Type} `{EqDecision E, EqDecision T} (ek : A → E) (none : A).
  Implicit Types (k : list A) (fs : list (list A * list A * list A)).
  Notation firsts := (firsts ek).
  Notation fact_at := (fact_at ek).

  Lemma firsts_elem ks k : k ∈ firsts ks → k ∈ ks.
  Proof.
    induction ks as [|a ks IH]; cbn [Grid.firsts]; [done|]. rewrite !elem_of_cons.
    intros [->|[_ H]%elem_of_list_filter]; [by left|right; by apply IH].
  Qed.
  Lemma firsts_keys ks x : x ∈ map (map ek) (firsts ks) ↔ x ∈ map (map ek) ks.
  Proof.
    induction ks as [|a ks IH]; [done|]. cbn [Grid.firsts map]. rewrite !elem_of_cons, <- IH.
    destruct (decide (x = map ek a)) as [->|Hx]; [naive_solver|].
    assert (x ∈ map (map ek) (filter (λ k', map ek k' ≠ map ek a) (firsts ks)) ↔ x ∈ map (map ek) (firsts ks)) as ->; [|done].
    change (map (map ek) ?l) with (map ek <$> l). rewrite !elem_of_list_fmap. split.
    - intros (y & -> & [_ Hy]%elem_of_list_filter). eauto.
    - intros (y & -> & Hy). exists y. split; [done|]. by apply elem_of_list_filter.
  Qed.
  Lemma firsts_NoDup ks : NoDup (map (map ek) (firsts ks)).
  Proof.
    induction ks as [|a ks IH]; cbn [Grid.firsts map]; [constructor|]. constructor.
    - intros (y & Hy & [Hn _]%elem_of_list_filter)%elem_of_list_fmap. by apply Hn.
    - clear -IH. induction (firsts ks) as [|b l IHl]; [constructor|]. cbn [map] in IH.
      apply list.NoDup_cons in IH as [Hb Hl]. rewrite filter_cons. case_decide; [|by apply IHl].
      cbn [map]. constructor; [|by apply IHl]. intros (y & Hy & [_ Hin]%elem_of_list_filter)%elem_of_list_fmap.
      apply Hb. rewrite Hy. by apply elem_of_list_fmap_1.
  Qed.
  Lemma firsts_snoc ks k :
    firsts (ks ++ [k]) = if decide (map ek k ∈ map (map ek) (firsts ks)) then firsts ks else firsts ks ++ [k].
  Proof.
    induction ks as [|a ks IH]; [done|]. cbn [Grid.firsts app map]. rewrite IH.
    destruct (decide (map ek k ∈ map (map ek) (firsts ks))) as [Hk|Hk].
    - destruct (decide (map ek k ∈ _ :: _)) as [|Hn]; [done|]. exfalso. apply Hn.
      destruct (decide (map ek k = map ek a)) as [->|Hka]; [by left|right].
      apply elem_of_list_fmap in Hk as (y & Hy & Hin). rewrite Hy. apply elem_of_list_fmap_1.
      apply elem_of_list_filter. split; [congruence|done].
    - rewrite list.filter_app, filter_cons, filter_nil.
      destruct (decide (map ek k = map ek a)) as [Hka|Hka].
      + rewrite decide_False by (intros Hn; by apply Hn). rewrite app_nil_r. rewrite decide_True; [done|]. rewrite Hka. by left.
      + rewrite decide_True by done. destruct (decide (map ek k ∈ _ :: _)) as [[?|(y & Hy & [_ Hin]%elem_of_list_filter)%elem_of_list_fmap]%elem_of_cons|]; [done| |done].
        exfalso. apply Hk. rewrite Hy. by apply elem_of_list_fmap_1.
  Qed.

  (** ** the index of keys *)
  Definition numbered_keys (l : list (list A)) : index := imap (λ i k, (map ek k, (k, i))) l.
  Lemma numbered_keys_fst l : (numbered_keys l).*1 = map (map ek) l.
  Proof. unfold numbered_keys. rewrite fmap_imap. unfold compose. cbn [fst]. apply (imap_const (map ek)). Qed.
  Lemma numbered_keys_snoc l k : numbered_keys (l ++ [k]) = numbered_keys l ++ [(map ek k, (k, length l))].
  Proof. unfold numbered_keys. rewrite imap_app. cbn [imap]. unfold compose. by rewrite Nat.add_0_r. Qed.
  Lemma dget_numbered_keys l i k x : NoDup (map (map ek) l) → l !! i = Some k → map ek k = map ek x →
    dget (numbered_keys l) (map ek x) = Some (k, i).
  Proof.
    intros Hnd Hi Hx. apply dget_Some; [by rewrite numbered_keys_fst|]. apply elem_of_list_lookup. exists i.
    unfold numbered_keys. rewrite list_lookup_imap, Hi. cbn. by rewrite Hx.
  Qed.
  Lemma add_key_spec ks k : add_key ek (numbered_keys (firsts ks)) k = numbered_keys (firsts (ks ++ [k])).
  Proof.
    unfold add_key. rewrite firsts_snoc. destruct (decide (map ek k ∈ map (map ek) (firsts ks))) as [Hk|Hk].
    - destruct (dget _ _) eqn:Eg; [done|]. apply dget_None in Eg. by rewrite numbered_keys_fst in Eg.
    - assert (dget (numbered_keys (firsts ks)) (map ek k) = None) as -> by (apply dget_None; by rewrite numbered_keys_fst).
      rewrite dset_fresh by (by rewrite numbered_keys_fst). rewrite numbered_keys_snoc. unfold numbered_keys at 2. by rewrite imap_length.
  Qed.
  Lemma ix_of_spec ks k : k ∈ ks → ∃ k', firsts ks !! ix_of ek (numbered_keys (firsts ks)) k = Some k' ∧ map ek k' = map ek k.
  Proof.
    intros Hk. assert (map ek k ∈ map (map ek) (firsts ks)) as Hin by (apply firsts_keys; by apply elem_of_list_fmap_1).
    apply elem_of_list_fmap in Hin as (k' & Hkk & [i Hi]%elem_of_list_lookup). exists k'. split; [|done].
    unfold ix_of. rewrite (dget_numbered_keys _ i k' k); [done|apply firsts_NoDup|done|done].
  Qed.
  Lemma firsts_lookup_inj ks i j k k' : firsts ks !! i = Some k → firsts ks !! j = Some k' → map ek k = map ek k' → i = j.
  Proof.
    intros Hi Hj He. eapply (NoDup_lookup (map (map ek) (firsts ks))); [apply firsts_NoDup| |];
      change (map (map ek) ?l) with (map ek <$> l); rewrite list_lookup_fmap.
    - by rewrite Hi.
    - rewrite Hj. cbn. by rewrite He.
  Qed.
  Lemma firsts_prefix ks k i x : firsts ks !! i = Some x → firsts (ks ++ [k]) !! i = Some x.
  Proof. intros H. rewrite firsts_snoc. case_decide; [done|]. by apply lookup_app_l_Some. Qed.

  (** ** facts *)
  Definition pair_key (f : list A * list A * list A) : list E * list E := (map ek f.1.1, map ek f.1.2).
  Lemma fact_at_None fs rk ck : fact_at fs rk ck = None ↔ (map ek rk, map ek ck) ∉ map pair_key fs.
  Proof.
    unfold Grid.fact_at. split.
    - intros Hn (f & Hf & Hin)%elem_of_list_fmap. injection Hf as H1 H2.
      assert (f ∈ filter (λ f, map ek f.1.1 = map ek rk ∧ map ek f.1.2 = map ek ck) fs) as Hfi by (by apply elem_of_list_filter).
      destruct (filter _ fs); [by apply elem_of_nil in Hfi|done].
    - intros Hn. destruct (filter _ fs) as [|f l] eqn:Ef; [done|]. exfalso. apply Hn.
      assert (f ∈ filter (λ f, map ek f.1.1 = map ek rk ∧ map ek f.1.2 = map ek ck) fs) as [[H1 H2] Hfi]%elem_of_list_filter by (rewrite Ef; left).
      apply elem_of_list_fmap. exists f. split; [|done]. unfold pair_key. by rewrite H1, H2.
  Qed.
  Lemma head_filter_snoc {X} (P : X → Prop) `{∀ x, Decision (P x)} l x :
    head (filter P (l ++ [x])) = match head (filter P l) with Some y => Some y | None => if decide (P x) then Some x else None end.
  Proof. rewrite list.filter_app, filter_cons, filter_nil. destruct (filter P l); [by case_decide|done]. Qed.
  Lemma fact_at_snoc fs f rk ck :
    fact_at (fs ++ [f]) rk ck = match fact_at fs rk ck with
                                | Some v => Some v
                                | None => if decide ((map ek rk, map ek ck) = pair_key f) then Some f.2 else None
                                end.
  Proof.
    unfold Grid.fact_at. rewrite head_filter_snoc. destruct (head (filter _ fs)) as [g|]; [done|].
    unfold pair_key. destruct (decide (map ek f.1.1 = map ek rk ∧ _)) as [[H1 H2]|Hn].
    - destruct (decide ((map ek rk, map ek ck) = _)) as [|Hd]; [done|]. exfalso. apply Hd. by rewrite H1, H2.
    - destruct (decide ((map ek rk, map ek ck) = _)) as [Hd|]; [|done]. exfalso. injection Hd as H1 H2. by apply Hn.
  Qed.
  Lemma fact_at_elem fs rk ck v : fact_at fs rk ck = Some v → ∃ f, f ∈ fs ∧ f.2 = v ∧ map ek f.1.1 = map ek rk ∧ map ek f.1.2 = map ek ck.
  Proof.
    unfold Grid.fact_at. destruct (filter _ fs) as [|f l] eqn:Ef; [done|]. intros [= <-]. exists f.
    assert (f ∈ filter (λ f, map ek f.1.1 = map ek rk ∧ map ek f.1.2 = map ek ck) fs) as [[H1 H2] Hfi]%elem_of_list_filter by (rewrite Ef; left).
    done.
  Qed.

  (** ** the records *)
  Notation rks fs := (firsts fs.*1.*1).
  Notation cks fs := (firsts fs.*1.*2).
  Lemma rks_prefix fs f i x : rks fs !! i = Some x → rks (fs ++ [f]) !! i = Some x.
  Proof. rewrite !fmap_app. apply firsts_prefix. Qed.
  Lemma cks_prefix fs f i x : cks fs !! i = Some x → cks (fs ++ [f]) !! i = Some x.
  Proof. rewrite !fmap_app. apply firsts_prefix. Qed.
  Definition get_rec (recs : records (A := A)) (c r : nat) : option (list A) := dget (dget_or recs c []) r.
  Definition good (fs : list (list A * list A * list A)) (s : index * index * records (A := A)) : Prop :=
    s.1.1 = numbered_keys (rks fs) ∧ s.1.2 = numbered_keys (cks fs) ∧
    (∀ c, NoDup (dget_or s.2 c []).*1) ∧
    ∀ c r f, get_rec s.2 c r = Some f ↔
      ∃ rk ck, rks fs !! r = Some rk ∧ cks fs !! c = Some ck ∧ fact_at fs rk ck = Some f.
  (** the row of a fact *)
  Definition to_row (f : list A * list A * list A) : list A := f.1.1 ++ f.1.2 ++ f.2.

  Lemma get_rec_dset recs c r f c' r' :
    get_rec (dset recs c (dset (dget_or recs c []) r f)) c' r'
    = if decide (c' = c) then if decide (r' = r) then Some f else get_rec recs c' r' else get_rec recs c' r'.
  Proof.
    unfold get_rec, dget_or at 1. rewrite dget_dset. destruct (decide (c' = c)) as [->|]; [|done].
    cbn. rewrite dget_dset. by case_decide.
  Qed.

  Lemma grid_row_good nr nc fs s f :
    good fs s → length f.1.1 = nr → length f.1.2 = nc →
    (pair_key f ∉ map pair_key fs → ∃ s', grid_row ek nr nc s (to_row f) = Ok s' ∧ good (fs ++ [f]) s') ∧
    (pair_key f ∈ map pair_key fs → grid_row ek nr nc s (to_row f) = Err ValueError).
  Proof.
    destruct s as [[ris cis] recs]. intros (Hr & Hc & Hnd & Hg) Hl1 Hl2. cbn [fst snd] in *. subst ris cis.
    unfold grid_row. unfold to_row. rewrite <- Hl1, <- Hl2, take_app, drop_app, take_app, drop_add_app, drop_app by done.
    rewrite !add_key_spec.
    assert (fs.*1.*1 ++ [f.1.1] = (fs ++ [f]).*1.*1) as -> by (by rewrite !fmap_app).
    assert (fs.*1.*2 ++ [f.1.2] = (fs ++ [f]).*1.*2) as -> by (by rewrite !fmap_app).
    destruct (ix_of_spec (fs ++ [f]).*1.*1 f.1.1) as (rk & Hrk & Erk); [rewrite !fmap_app; apply elem_of_app; right; by left|].
    destruct (ix_of_spec (fs ++ [f]).*1.*2 f.1.2) as (ck & Hck & Eck); [rewrite !fmap_app; apply elem_of_app; right; by left|].
    set (rix := ix_of _ _ f.1.1) in *. set (cix := ix_of _ _ f.1.2) in *.
    change (dget (dget_or recs cix []) rix) with (get_rec recs cix rix).
    assert (Hsome : pair_key f ∈ map pair_key fs ↔ is_Some (get_rec recs cix rix)).
    { split.
      - intros Hin. destruct (fact_at fs rk ck) as [v|] eqn:Ev.
        2:{ apply fact_at_None in Ev. rewrite Erk, Eck in Ev. done. }
        exists v. apply Hg. destruct (fact_at_elem _ _ _ _ Ev) as (f0 & Hf0 & Hv0 & K1 & K2).
        assert (f0.1.1 ∈ fs.*1.*1) as M1 by (by do 2 apply elem_of_list_fmap_1).
        assert (f0.1.2 ∈ fs.*1.*2) as M2 by (apply elem_of_list_fmap_1; by apply elem_of_list_fmap_1).
        destruct (ix_of_spec _ _ M1) as (rk' & Hrk' & Erk'). destruct (ix_of_spec _ _ M2) as (ck' & Hck' & Eck').
        assert (rks fs !! rix = Some rk').
        { erewrite (firsts_lookup_inj (fs ++ [f]).*1.*1 rix _ rk rk'); [exact Hrk'|exact Hrk| |congruence].
          by apply rks_prefix. }
        assert (cks fs !! cix = Some ck').
        { erewrite (firsts_lookup_inj (fs ++ [f]).*1.*2 cix _ ck ck'); [exact Hck'|exact Hck| |congruence].
          by apply cks_prefix. }
        exists rk', ck'. split_and!; [done..|]. rewrite <- Ev. unfold Grid.fact_at. by rewrite Erk', Eck', K1, K2.
      - intros [v Hv]. apply Hg in Hv as (rk' & ck' & H1 & H2 & H3).
        apply (rks_prefix _ f) in H1. apply (cks_prefix _ f) in H2.
        rewrite Hrk in H1. rewrite Hck in H2. injection H1 as <-. injection H2 as <-.
        destruct (fact_at_elem _ _ _ _ H3) as (f0 & Hf0 & Hv0 & K1 & K2). apply elem_of_list_fmap. exists f0.
        split; [|done]. unfold pair_key. congruence. }
    split.
    - intros Hnew. destruct (get_rec recs cix rix) as [v|] eqn:Eg; [exfalso; apply Hnew, Hsome; eauto|].
      eexists. split; [done|]. unfold good. cbn [fst snd]. split_and!; [done..| |].
      + intros c. unfold dget_or at 1. rewrite dget_dset. case_decide; [|apply Hnd]. cbn. apply dset_NoDup, Hnd.
      + intros c r v. rewrite get_rec_dset.
        assert (Hold : ∀ c r, ¬ (c = cix ∧ r = rix) → get_rec recs c r = Some v ↔
          ∃ rk ck, rks (fs ++ [f]) !! r = Some rk ∧ cks (fs ++ [f]) !! c = Some ck ∧ fact_at (fs ++ [f]) rk ck = Some v).
        { intros c0 r0 Hcr. rewrite Hg. split.
          - intros (rk' & ck' & H1 & H2 & H3). exists rk', ck'. split_and!; [by apply rks_prefix|by apply cks_prefix|].
            by rewrite fact_at_snoc, H3.
          - intros (rk' & ck' & H1 & H2 & H3). rewrite fact_at_snoc in H3.
            destruct (fact_at fs rk' ck') as [v'|] eqn:Ev.
            2:{ case_decide as Hd; [|done]. injection Hd as D1 D2. exfalso. apply Hcr. split.
                - by eapply (firsts_lookup_inj (fs ++ [f]).*1.*2); [exact H2|exact Hck|congruence].
                - by eapply (firsts_lookup_inj (fs ++ [f]).*1.*1); [exact H1|exact Hrk|congruence]. }
            injection H3 as <-. destruct (fact_at_elem _ _ _ _ Ev) as (f0 & Hf0 & Hv0 & K1 & K2).
            assert (f0.1.1 ∈ fs.*1.*1) as M1 by (by do 2 apply elem_of_list_fmap_1).
            assert (f0.1.2 ∈ fs.*1.*2) as M2 by (apply elem_of_list_fmap_1; by apply elem_of_list_fmap_1).
            destruct (ix_of_spec _ _ M1) as (rk2 & Hrk2 & Erk2). destruct (ix_of_spec _ _ M2) as (ck2 & Hck2 & Eck2).
            pose proof (rks_prefix _ f _ _ Hrk2) as P1. pose proof (cks_prefix _ f _ _ Hck2) as P2.
            assert (r0 = ix_of ek (numbered_keys (rks fs)) f0.1.1) as Er.
            { eapply (firsts_lookup_inj (fs ++ [f]).*1.*1); [exact H1|exact P1|congruence]. }
            assert (c0 = ix_of ek (numbered_keys (cks fs)) f0.1.2) as Ec.
            { eapply (firsts_lookup_inj (fs ++ [f]).*1.*2); [exact H2|exact P2|congruence]. }
            rewrite <- Er in P1, Hrk2. rewrite <- Ec in P2, Hck2.
            rewrite P1 in H1. rewrite P2 in H2. injection H1 as <-. injection H2 as <-. eauto. }
        destruct (decide (c = cix)) as [->|Hc]; [destruct (decide (r = rix)) as [->|Hr]|].
        * assert (fact_at fs rk ck = None) as Hnone.
          { apply fact_at_None. rewrite Erk, Eck. exact Hnew. }
          split.
          -- intros [= <-]. exists rk, ck. split_and!; [done..|]. rewrite fact_at_snoc, Hnone, decide_True; [done|].
             unfold pair_key. by rewrite Erk, Eck.
          -- intros (rk' & ck' & H1 & H2 & H3). rewrite Hrk in H1. rewrite Hck in H2. injection H1 as <-. injection H2 as <-.
             rewrite fact_at_snoc, Hnone, decide_True in H3; [done|]. unfold pair_key. by rewrite Erk, Eck.
        * apply Hold. by intros [_ ?].
        * apply Hold. by intros [? _].
    - intros Hin. apply Hsome in Hin as [v ->]. done.
  Qed.

  Lemma grid_rows_good nr nc fs0 fs s :
    good fs0 s → Forall (λ f, length f.1.1 = nr ∧ length f.1.2 = nc) fs → NoDup (map pair_key fs0) →
    (NoDup (map pair_key (fs0 ++ fs)) → ∃ s', grid_rows ek nr nc s (map to_row fs) = Ok s' ∧ good (fs0 ++ fs) s') ∧
    (¬ NoDup (map pair_key (fs0 ++ fs)) → grid_rows ek nr nc s (map to_row fs) = Err ValueError).
  Proof.
    revert fs0 s. induction fs as [|f fs IH]; intros fs0 s Hs Hl Hnd; cbn [grid_rows map].
    - rewrite app_nil_r. split; [eauto|done].
    - apply list.Forall_cons in Hl as [[Hl1 Hl2] Hl]. destruct (grid_row_good nr nc fs0 s f Hs Hl1 Hl2) as [H1 H2].
      destruct (decide (pair_key f ∈ map pair_key fs0)) as [Hin|Hin].
      + rewrite (H2 Hin). cbn [res_bind]. split; [|done]. intros Hn. exfalso. rewrite map_app in Hn.
        apply list.NoDup_app in Hn as (_ & Hn & _). apply (Hn _ Hin). by left.
      + destruct (H1 Hin) as (s' & -> & Hs'). cbn [res_bind].
        replace (fs0 ++ f :: fs) with ((fs0 ++ [f]) ++ fs) by (by rewrite <- app_assoc). apply IH; [done|done|].
        rewrite map_app. apply list.NoDup_app. split; [done|]. split; [|apply NoDup_singleton].
        intros x Hx ->%elem_of_list_singleton. done.
  Qed.
  Lemma good_nil : good [] ([], [], []).
  Proof.
    split_and!; [done|done|intros c; constructor|]. intros c r f. split; [done|]. intros (rk & ck & H1 & _). done.
  Qed.
End grid.
