(** Proofs about [Model.Match] *)
From stdpp Require Import strings.
From Verif.Spec Require Import Merge Match.
From Verif.Proof Require Import SliceLemmas ColumnRead DictLemmas NamesProofs TableBase FilterProofs MergeProofs GridTable.
From Verif.Model Require Import Match.
Local Open Scope Z_scope.

Definition code (o : option nat) : Z := match o with Some j => Z.of_nat j | None => -1 end.
Lemma code_none o : (code o =? -1) = negb (bool_decide (is_Some o)).
Proof. destruct o as [j|]; cbn [code]; [|done]. rewrite bool_decide_eq_true_2 by eauto. cbn. lia. Qed.

Section gather.
  Context {X : Type}.
  Lemma gather_ok (x : list X) ix : Forall (λ i, i < length x)%nat ix →
    ∃ l, gather x ix = Ok l ∧ length l = length ix ∧ ∀ i, l !! i = (ix !! i ≫= (x !!.)).
  Proof.
    intros H. unfold gather. destruct (mapM (λ i, x !! i) ix) as [l|] eqn:E.
    - exists l. split; [done|]. apply mapM_Some in E. split; [symmetry; by eapply Forall2_length|]. intros i.
      destruct (ix !! i) as [k|] eqn:Ei; cbn.
      + destruct (Forall2_lookup_l _ _ _ _ _ E Ei) as (y & Hy & Hk). congruence.
      + apply lookup_ge_None in Ei. apply lookup_ge_None_2. apply Forall2_length in E. lia.
    - exfalso. assert (is_Some (mapM (λ i, x !! i) ix)) as [? ?]; [|congruence].
      apply mapM_is_Some_2. eapply list.Forall_impl; [exact H|]. intros i Hi. by apply lookup_lt_is_Some_2.
  Qed.
  Lemma gather_default (none : X) (x : list X) ix : Forall (λ i, i < length x)%nat ix →
    gather x ix = Ok (map (λ i, default none (x !! i)) ix).
  Proof.
    intros H. destruct (gather_ok x ix H) as (l & -> & Hl & Hx). f_equal. apply list_eq. intros i. rewrite Hx.
    change (map ?f ?y) with (f <$> y). rewrite list_lookup_fmap. destruct (ix !! i) as [k|] eqn:E; [|done]. cbn.
    pose proof (proj1 (list.Forall_lookup _ _) H i k E) as Hk. cbn in Hk.
    destruct (lookup_lt_is_Some_2 x k Hk) as [y ->]. done.
  Qed.
End gather.

Section find.
  Context {A : Type} (ltb eqb : A → A → bool) (argsort : list A → res (list nat)) (P : A → Prop) (HP : ordered ltb eqb P).

  Lemma searchsorted_le sx v : (searchsorted ltb sx v <= length sx)%nat.
  Proof.
    unfold searchsorted. destruct (list_find _ sx) as [[i a]|] eqn:E; cbn; [|lia].
    apply list_find_Some in E as (E & _). apply lookup_lt_Some in E. lia.
  Qed.
  (** the element found is equal to [v] if there is any *)
  Lemma found_equal sx v k e : Forall P sx → P v →
    (∀ i j a b, (i < j)%nat → sx !! i = Some a → sx !! j = Some b → ltb b a = false) →
    sx !! k = Some e → eqb e v = true →
    ∃ a, sx !! searchsorted ltb sx v = Some a ∧ eqb a v = true.
  Proof using HP.
    intros HF Hv Hs Hk He. destruct HP as (Htr & Hinc & Heq).
    pose proof (proj1 (list.Forall_lookup _ _) HF _ _ Hk) as Pe.
    apply Heq in He as (H1 & H2 & Hvv); [|done..].
    unfold searchsorted. destruct (list_find (λ x, ltb x v = false) sx) as [[i a]|] eqn:E; cbn.
    - apply list_find_Some in E as (Ei & Ha & Hmin). exists a. split; [done|].
      pose proof (proj1 (list.Forall_lookup _ _) HF _ _ Ei) as Pa. apply Heq; [done..|]. split; [done|]. split; [|done].
      destruct (ltb v a) eqn:Hva; [|done]. exfalso.
      assert (Hea : ltb e a = false).
      { destruct (lt_eq_lt_dec i k) as [[Hik| ->]|Hik].
        - by eapply Hs.
        - replace a with e by congruence. destruct (Hinc e v e) as [? _]; done.
        - exfalso. by apply (Hmin k e Hk Hik). }
      destruct (ltb a e) eqn:Hae.
      + rewrite (Htr v a e) in H2; done.
      + destruct (Hinc v e a) as [? _]; try done. congruence.
    - exfalso. apply list_find_None in E. apply (proj1 (list.Forall_lookup _ _) E) in Hk. congruence.
  Qed.

  Definition finds (x : list A) (v : A) (j : option nat) : Prop :=
    match j with
    | Some j => ∃ b, x !! j = Some b ∧ eqb b v = true
    | None => ∀ j b, x !! j = Some b → eqb b v = false
    end.

  Lemma find_spec x y p : Forall P x → Forall P y → argsort x = Ok p → sorts ltb x p → x ≠ [] ∨ y = [] →
    ∃ js, find_indices ltb eqb argsort x y = Ok (map code js) ∧ length js = length y ∧
      ∀ i v j, y !! i = Some v → js !! i = Some j → finds x v j.
  Proof using HP.
    intros HPx HPy Hp [Hperm Hsort] Hne. unfold find_indices. rewrite Hp. cbn [res_bind].
    assert (Hlp : length p = length x) by (rewrite Hperm; apply seq_length).
    assert (Hrange : Forall (λ i, i < length x)%nat p).
    { apply list.Forall_forall. intros i Hi. rewrite Hperm in Hi. apply elem_of_seq in Hi. lia. }
    destruct (gather_ok x p Hrange) as (sx & -> & Hlsx & Hsx). cbn [res_bind]. cbv zeta.
    assert (Hsorted : ∀ i j a b, (i < j)%nat → sx !! i = Some a → sx !! j = Some b → ltb b a = false).
    { intros i j a b Hij Ha Hb. rewrite Hsx in Ha, Hb. by eapply Hsort. }
    assert (HPsx : Forall P sx).
    { apply list.Forall_lookup. intros i a Ha. rewrite Hsx in Ha. apply bind_Some in Ha as (k & _ & Hk).
      by apply (proj1 (list.Forall_lookup _ _) HPx) in Hk. }
    unfold take_clip.
    set (clip := λ v, Nat.min (searchsorted ltb sx v) (length p - 1)).
    assert (Hmm : map (λ i, Nat.min i (length p - 1)) (map (searchsorted ltb sx) y) = map clip y) by (by rewrite map_map).
    rewrite Hmm. clear Hmm.
    assert (Hclip : Forall (λ i, i < length p)%nat (map clip y)).
    { apply list.Forall_forall. intros i Hi. apply elem_of_list_fmap in Hi as (v & -> & Hv). unfold clip.
      destruct Hne as [Hne| ->]; [|by apply elem_of_nil in Hv]. destruct x; [done|]. cbn [length] in Hlp. lia. }
    destruct (gather_ok p (map clip y) Hclip) as (yi & -> & Hlyi & Hyi). cbn [res_bind].
    assert (Hyr : Forall (λ i, i < length x)%nat yi).
    { apply list.Forall_lookup. intros i k Hk. rewrite Hyi in Hk. apply bind_Some in Hk as (q & _ & Hq).
      by apply (proj1 (list.Forall_lookup _ _) Hrange) in Hq. }
    destruct (gather_ok x yi Hyr) as (xs & -> & Hlxs & Hxs). cbn [res_map].
    rewrite map_length in Hlyi.
    exists (zip_with (λ (q : nat * A) v, if eqb q.2 v then Some q.1 else None) (zip yi xs) y).
    split_and!.
    - f_equal. change (map code ?z) with (code <$> z). rewrite fmap_zip_with_l || idtac.
      generalize (zip yi xs). clear. intros l. revert l. induction y as [|v y IH]; intros [|q l]; [done..|].
      cbn. rewrite IH. by destruct (eqb q.2 v).
    - rewrite zip_with_length, zip_with_length. lia.
    - intros i v j Hv Hj. apply lookup_zip_with_Some in Hj as ([k e] & v' & -> & Hke & Hv').
      replace v' with v in * by congruence. clear Hv'.
      apply lookup_zip_with_Some in Hke as (k' & e' & [= <- <-] & Hk & He). cbn [fst snd].
      assert (He2 : x !! k = Some e). { rewrite Hxs, Hk in He. done. }
      destruct (eqb e v) eqn:Hev; cbn [finds]; [by exists e|].
      intros j b Hb. destruct (eqb b v) eqn:Hbv; [|done]. exfalso.
      assert (Hex : ∃ pos, p !! pos = Some j).
      { apply elem_of_list_lookup. rewrite Hperm. apply elem_of_seq. apply lookup_lt_Some in Hb. lia. }
      destruct Hex as [pos Hpos].
      destruct (found_equal sx v pos b) as (a & Ha & Hav); try done.
      { by apply (proj1 (list.Forall_lookup _ _) HPy) in Hv. }
      { by rewrite Hsx, Hpos. }
      assert (Hc : clip v = searchsorted ltb sx v).
      { unfold clip. apply lookup_lt_Some in Ha. lia. }
      assert (Hk2 : p !! clip v = Some k).
      { rewrite Hyi in Hk. change (map clip y) with (clip <$> y) in Hk. rewrite list_lookup_fmap, Hv in Hk. done. }
      rewrite Hsx, <- Hc, Hk2 in Ha. cbn in Ha. congruence.
  Qed.

  Lemma find_empty y : argsort [] = Ok [] → y ≠ [] → find_indices ltb eqb argsort [] y = Err IndexError.
  Proof. intros Hp Hy. unfold find_indices. rewrite Hp. cbn. destruct y; [done|]. done. Qed.
End find.

Section tables.
  Context {A T : Type} `{EqDecision T} (ty : A → T) (ps : Z) (ltb eqb : A → A → bool) (argsort : list A → res (list nat)).
  Context (P : A → Prop) (HP : ordered ltb eqb P) (Hps : 0 < ps) (none : A).
  Notation tbl := (table string A T).
  Implicit Types (t other : tbl).

  Lemma merge_spec js ks : length js = length ks →
    merge_indices (map code js) (map code ks) = Ok (map code (zip_with (λ o n : option nat, match o with Some j => Some j | None => n end) js ks)).
  Proof.
    intros Hl. unfold merge_indices. rewrite np_where_same by (rewrite !map_length; lia).
    f_equal. rewrite map_id. unfold choose. clear -Hl. revert ks Hl. induction js as [|o js IH]; intros [|k ks] Hl; try done.
    cbn in Hl. cbn. rewrite IH by lia. f_equal. destruct o; cbn; [|done]. destruct (_ =? _) eqn:E; [lia|done].
  Qed.

  Lemma matching_snoc cs c n js ks : matching eqb cs n js → length ks = n → length c.1 = n →
    (∀ i v j, c.1 !! i = Some v → ks !! i = Some j → finds eqb c.2 v j) →
    matching eqb (cs ++ [c]) n (zip_with (λ o k : option nat, match o with Some j => Some j | None => k end) js ks).
  Proof.
    intros [Hl Hm] Hk Hc Hf. split; [rewrite zip_with_length; lia|]. intros i j Hj.
    apply lookup_zip_with_Some in Hj as (o & k & -> & Ho & Hki). pose proof (Hm i o Ho) as Hmi.
    assert (Hv : is_Some (c.1 !! i)) by (apply lookup_lt_is_Some_2; apply lookup_lt_Some in Hki; lia).
    destruct Hv as [v Hv]. pose proof (Hf i v k Hv Hki) as Hfi.
    destruct o as [j|].
    - destruct Hmi as (q & c0 & Hq & Hag & Hbef). exists q, c0. split; [by apply lookup_app_l_Some|]. split; [done|].
      intros q' c' j' Hlt Hc'. apply (Hbef q'); [done|]. rewrite lookup_app_l in Hc'; [done|].
      apply lookup_lt_Some in Hq. lia.
    - destruct k as [j|].
      + destruct Hfi as (b & Hb & Heb). exists (length cs), c. split.
        { rewrite lookup_app_r, Nat.sub_diag by lia. done. }
        split; [by exists v, b|]. intros q' c' j' Hlt Hc'. rewrite lookup_app_l in Hc' by done.
        apply Hmi. by eapply elem_of_list_lookup_2.
      + intros c' j [Hc'| ->%elem_of_list_singleton]%elem_of_app; [by apply Hmi|].
        intros (a & b & Ha & Hb & Hab). rewrite (Hfi j b Hb) in Hab || idtac.
        replace v with a in Hfi by congruence. rewrite (Hfi j b Hb) in Hab. done.
  Qed.

  Notation crit_cols t other := (λ (k : string * string * string) (c : list A * list A),
    k.1.2 = "=="%string ∧ dget (contents t) k.1.1 = Some c.1 ∧ dget (contents other) k.2 = Some c.2).

  Lemma getslice_full (c : column A T) : col_getslice c (Slice None None None) = Ok (col_iter c).
  Proof. rewrite col_getslice_pos by done. by rewrite getslice_all. Qed.
  Lemma contents_dget_Some t n l : dget (contents t) n = Some l → ∃ c, dget t n = Some c ∧ col_iter c = l.
  Proof. rewrite contents_dget. destruct (dget t n) as [c|]; [|done]. intros [= <-]. eauto. Qed.

  Lemma match_indices_spec t other criteria cs n (done_ : list (list A * list A)) js :
    Forall2 (crit_cols t other) criteria cs →
    Forall (λ c, length c.1 = n ∧ Forall P c.1 ∧ Forall P c.2 ∧ (c.2 ≠ [] ∨ n = 0%nat) ∧ ∃ p, argsort c.2 = Ok p ∧ sorts ltb c.2 p) cs →
    matching eqb done_ n js →
    ∃ js', match_indices ltb eqb argsort t other criteria (map code js) = Ok (map code js') ∧ matching eqb (done_ ++ cs) n js'.
  Proof using HP.
    intros Hcs. revert done_ js. induction Hcs as [|[[b op] a] c criteria cs (Hop & Hb & Ha) Hcs IH]; intros done_ js HF Hm.
    - exists js. rewrite app_nil_r. done.
    - apply list.Forall_cons in HF as [(Hl & HP1 & HP2 & Hne & p & Hp & Hs) HF]. cbn [fst snd] in *.
      cbn [match_indices]. rewrite decide_False by (subst; auto).
      destruct (contents_dget_Some _ _ _ Hb) as (cb & -> & Hcb). destruct (contents_dget_Some _ _ _ Ha) as (ca & -> & Hca).
      rewrite !getslice_full. cbn [res_bind]. rewrite Hcb, Hca.
      destruct (find_spec ltb eqb argsort P HP c.2 c.1 p) as (ks & -> & Hlk & Hks); try done.
      { destruct Hne as [|Hn]; [by left|right]. apply nil_length_inv. lia. }
      cbn [res_bind]. rewrite merge_spec by (destruct Hm; lia). cbn [res_bind].
      destruct (IH (done_ ++ [c]) (zip_with (λ o k : option nat, match o with Some j => Some j | None => k end) js ks)) as (js' & -> & Hm').
      { done. } { apply matching_snoc; [done|lia|done|done]. }
      exists js'. rewrite <- app_assoc in Hm'. done.
  Qed.

  Lemma mask_code js : map (λ z, negb (z =? -1)) (map code js) = map (λ o, bool_decide (is_Some o)) js.
  Proof. rewrite map_map. apply map_ext. intros o. by rewrite code_none, negb_involutive. Qed.
  Lemma compress_kept {X} (js : list (option nat)) (l : list X) : length l = length js →
    np_compress (map (λ o, bool_decide (is_Some o)) js) l = Ok (kept js l).
  Proof.
    intros Hl. unfold np_compress. rewrite drop_ge by (rewrite map_length; lia). cbn [existsb]. f_equal.
    unfold kept. revert l Hl. induction js as [|o js IH]; intros [|y l] Hl; try done. cbn [map].
    rewrite pick_bits_cons. cbn in Hl. rewrite IH by lia. cbn [zip zip_with]. rewrite filter_cons. cbn [fst].
    destruct (decide (is_Some o)) as [Ho|Ho].
    - rewrite bool_decide_eq_true_2 by done. done.
    - rewrite bool_decide_eq_false_2 by done. done.
  Qed.
  Lemma kept_code (js : list (option nat)) : kept js (map code js) = map Z.of_nat (omap id js).
  Proof.
    unfold kept. induction js as [|o js IH]; [done|]. cbn [map zip zip_with]. rewrite filter_cons. cbn [fst].
    destruct o as [j|].
    - rewrite decide_True by eauto. cbn. unfold kept in IH. cbn in IH. by rewrite IH.
    - rewrite decide_False by (by intros [? ?]). cbn. exact IH.
  Qed.

  Lemma add_left_spec t keep js new : NoDup (new.*1 ++ t.*1) → rect (length js) (contents t) →
    ∃ new', add_left ty ps t keep (map (λ o, bool_decide (is_Some o)) js) new = Ok new' ∧
      contents new' = contents new ++ map (λ c, (c.1, kept js c.2)) (only keep (contents t)).
  Proof using Hps.
    revert new. induction t as [|[m c] t IH]; intros new Hnd Hr.
    - exists new. cbn. by rewrite app_nil_r.
    - change (contents ((m, c) :: t)) with ((m, col_iter c) :: contents t) in Hr |- *. apply list.Forall_cons in Hr as [Hc Hr]. cbn [snd] in Hc. cbn [add_left].
      unfold only. rewrite filter_cons. fold (only keep (contents t)). cbn [fst snd].
      rewrite fmap_cons in Hnd. cbn [fst] in Hnd. destruct (decide (m ∈ keep)).
      + rewrite getslice_full. cbn [res_bind]. rewrite compress_kept by done. cbn [res_bind].
        assert (Hm : m ∉ new.*1).
        { apply list.NoDup_app in Hnd as (_ & Hd & _). intros Hin. apply (Hd m Hin). by left. }
        destruct (IH (tbl_set ty ps new m (kept js (col_iter c)))) as (new' & -> & Hc').
        { unfold tbl_set. rewrite dset_fresh, fmap_app by done. cbn. rewrite <- app_assoc. done. }
        { done. }
        exists new'. split; [done|]. rewrite Hc'. unfold tbl_set. rewrite dset_fresh, contents_app by done. cbn [map fst snd contents].
        rewrite <- app_assoc. unfold col_new. rewrite col_extend_iter by done. done.
      + destruct (IH new) as (new' & -> & Hc'); [|done|by exists new'].
        apply list.NoDup_app in Hnd as (H1 & H2 & H3). apply list.NoDup_cons in H3 as [_ H3]. apply list.NoDup_app. split; [done|]. split; [|done].
        intros x Hx Hin. apply (H2 x Hx). by right.
  Qed.

  Definition right_cols js keep (v : view (N := string) (A := A)) : list (string * list A) :=
    map (λ c, (c.1, partners none js c.2)) (only keep v).
  Lemma add_right_spec other keep js new m : rect m (contents other) → Forall (λ j, j < m)%nat (omap id js) →
    add_right ty ps other keep (map Z.of_nat (omap id js)) new = add_uniques ty ps new (right_cols js keep (contents other)).
  Proof.
    intros Hr Hj. revert new. induction other as [|[n c] other IH]; intros new; [done|].
    cbn [contents map fst snd] in Hr. apply list.Forall_cons in Hr as [Hc Hr]. cbn [snd] in Hc. cbn [add_right].
    unfold right_cols. change (contents ((n, c) :: other)) with ((n, col_iter c) :: contents other). unfold only. rewrite filter_cons. fold (only keep (contents other)). cbn [fst snd]. destruct (decide (n ∈ keep)).
    - rewrite getslice_full. cbn [res_bind]. rewrite map_map.
      assert (Hid : map (λ x, Z.to_nat (Z.of_nat x)) (omap id js) = omap id js).
      { rewrite <- (map_id (omap id js)) at 2. apply map_ext. intros. by rewrite Nat2Z.id. }
      rewrite Hid, (gather_default none) by (by rewrite Hc). cbn [res_bind map fst snd add_uniques].
      change (map (λ i, default none (col_iter c !! i)) (omap id js)) with (partners none js (col_iter c)).
      destruct (add_unique ty ps new n (partners none js (col_iter c))) as [new1|]; cbn [res_bind]; [|done]. by apply IH.
    - by apply IH.
  Qed.

  Lemma match_spec t other criteria cs kl kr :
    NoDup t.*1 → rect (nrows (contents t)) (contents t) → rect (nrows (contents other)) (contents other) →
    (∀ x, x ∈ default t.*1 kl → x ∈ t.*1) → (∀ x, x ∈ default other.*1 kr → x ∈ other.*1) →
    Forall2 (crit_cols t other) criteria cs →
    Forall (λ c, Forall P c.1 ∧ Forall P c.2 ∧ ∃ p, argsort c.2 = Ok p ∧ sorts ltb c.2 p) cs →
    nrows (contents other) ≠ 0%nat ∨ nrows (contents t) = 0%nat ∨ criteria = [] →
    ∃ out js ns, match_ ty ps ltb eqb argsort t other criteria kl kr = Ok out ∧
      matching eqb cs (nrows (contents t)) js ∧
      let lefts := map (λ c, (c.1, kept js c.2)) (only (default t.*1 kl) (contents t)) in
      let rights := only (default other.*1 kr) (contents other) in
      contents out = lefts ++ zip ns (map (λ c, partners none js c.2) rights) ∧
      NoDup (names lefts ++ ns) ∧ length ns = length rights ∧
      ∀ i h n, names rights !! i = Some h → ns !! i = Some n →
        (h ∉ names lefts ++ take i ns → n = h) ∧ (h ∈ names lefts ++ take i ns → ∃ k, n = numbered h k).
  Proof using HP Hps.
    intros Hnd Hrt Hro Hkl Hkr Hcs HF Hne. unfold match_.
    assert (Hf : ∀ (ns l : list string), (∀ x, x ∈ l → x ∈ ns) → negb (forallb (λ n, bool_decide (n ∈ ns)) l) = false).
    { intros ns l H. apply negb_false_iff, forallb_forall. intros x Hx%elem_of_list_In. apply bool_decide_eq_true_2. auto. }
    rewrite !Hf by done.
    assert (Hlen : Z.to_nat (tbl_len t) = nrows (contents t)) by (rewrite tbl_len_spec; lia). rewrite Hlen.
    set (n := nrows (contents t)) in *. set (m := nrows (contents other)) in *.
    assert (Hdl : ∀ (v : view (N := string) (A := A)) k x l, rect k v → dget v x = Some l → length l = k).
    { clear. intros v k x l Hr. induction Hr as [|[y w] v Hw Hr IH]; [done|]. cbn [dget]. case_decide; [|done].
      intros [= <-]. done. }
    assert (Hcl : Forall (λ c, length c.1 = n ∧ length c.2 = m) cs).
    { clear -Hcs Hdl Hrt Hro. induction Hcs as [|k c criteria cs (_ & H1 & H2) Hcs IH]; constructor; [|done]. split; by eapply Hdl. }
    destruct (match_indices_spec t other criteria cs n [] (replicate n None)) as (js & Hjs & Hm).
    - done.
    - apply list.Forall_lookup. intros i c Hc.
      pose proof (proj1 (list.Forall_lookup _ _) HF _ _ Hc) as (H1 & H2 & H3).
      pose proof (proj1 (list.Forall_lookup _ _) Hcl _ _ Hc) as (H4 & H5).
      split_and!; [done..| |done]. destruct Hne as [Hne|[Hne| ->]].
      + left. intros E. rewrite E in H5. cbn in H5. congruence.
      + by right.
      + inversion Hcs; subst. done.
    - split; [apply replicate_length|]. intros i j Hj. apply lookup_replicate in Hj as [-> _]. intros c j Hc. by apply elem_of_nil in Hc.
    - cbn [app] in Hm. change (-1) with (code None). change (map ?f ?x) with (f <$> x) in Hjs. rewrite fmap_replicate in Hjs.
      rewrite Hjs. cbn [res_bind]. change (code <$> js) with (map code js). rewrite mask_code.
      pose proof Hm as [Hlj Hmj].
      destruct (add_left_spec t (default t.*1 kl) js []) as (new & -> & Hnew).
      { done. } { by rewrite Hlj. }
      cbn [res_bind contents map app] in Hnew |- *. rewrite compress_kept by (by rewrite map_length). cbn [res_bind]. rewrite kept_code.
      rewrite (add_right_spec _ _ _ _ m).
      2: done.
      2:{ apply list.Forall_forall. intros j Hj. apply elem_of_list_omap in Hj as (o & Ho & Hoj). cbn in Hoj. subst o.
          apply elem_of_list_lookup in Ho as [i Hi]. apply Hmj in Hi as (k & c & Hk & (a & b & Ha & Hb & _) & _).
          apply lookup_lt_Some in Hb. pose proof (proj1 (list.Forall_lookup _ _) Hcl _ _ Hk) as (_ & H5). lia. }
      destruct (add_uniques_spec ty ps Hps new (right_cols js (default other.*1 kr) (contents other))) as (ns & out & -> & Hdd & Hln & Hout & Hko).
      exists out, js, ns. split; [done|]. split; [done|]. cbv zeta.
      set (lefts := map (λ c, (c.1, kept js c.2)) (only (default t.*1 kl) (contents t))) in *.
      assert (Hnn : new.*1 = names lefts). { rewrite <- contents_names, Hnew. done. }
      assert (Hndl : NoDup (names lefts)).
      { unfold names, lefts. rewrite (map_fst_map (kept js)). unfold only. apply filter_keys_NoDup.
        change ((contents t).*1) with (names (contents t)). by rewrite contents_names. }
      assert (Hr1 : (right_cols js (default other.*1 kr) (contents other)).*1 = names (only (default other.*1 kr) (contents other))).
      { unfold right_cols, names. apply (map_fst_map (partners none js)). }
      assert (Hr2 : (right_cols js (default other.*1 kr) (contents other)).*2 = map (λ c, partners none js c.2) (only (default other.*1 kr) (contents other))).
      { unfold right_cols. change (?f <$> map ?g ?l) with (map f (map g l)). rewrite map_map. done. }
      split; [by rewrite Hout, Hnew, Hr2|]. rewrite <- Hr1.
      rewrite <- Hnn in Hndl |- *.
      destruct (dedup_spec_aux (right_cols js (default other.*1 kr) (contents other)).*1 new.*1 Hndl) as (ns' & Hd' & Hnd' & Hl' & Hrule).
      unfold dedup_from in Hdd. rewrite Hdd in Hd'. injection Hd' as Hd'. apply app_inv_head in Hd'. subst ns'.
      split; [done|]. split; [|done]. rewrite Hln. unfold right_cols. by rewrite map_length.
  Qed.

  Lemma match_empty t other b a criteria kl kr y :
    (∀ x, x ∈ default t.*1 kl → x ∈ t.*1) → (∀ x, x ∈ default other.*1 kr → x ∈ other.*1) →
    argsort [] = Ok [] → dget (contents t) b = Some y → y ≠ [] → dget (contents other) a = Some [] →
    match_ ty ps ltb eqb argsort t other ((b, "=="%string, a) :: criteria) kl kr = Err IndexError.
  Proof.
    intros Hkl Hkr Hp Hb Hy Ha. unfold match_.
    assert (Hf : ∀ (ns l : list string), (∀ x, x ∈ l → x ∈ ns) → negb (forallb (λ n, bool_decide (n ∈ ns)) l) = false).
    { intros ns l H. apply negb_false_iff, forallb_forall. intros x Hx%elem_of_list_In. apply bool_decide_eq_true_2. auto. }
    rewrite !Hf by done. cbn [match_indices]. rewrite decide_False by auto.
    destruct (contents_dget_Some _ _ _ Hb) as (cb & -> & Hcb). destruct (contents_dget_Some _ _ _ Ha) as (ca & -> & Hca).
    rewrite !getslice_full. cbn [res_bind]. rewrite Hcb, Hca. rewrite find_empty by done. done.
  Qed.
End tables.
