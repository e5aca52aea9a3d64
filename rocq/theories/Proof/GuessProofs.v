(** Types guessed for a page of texts. *)
From Coq Require Import String.
From Verif.Spec Require Import GuessedPage Counts.
From Verif.Proof Require Import RankProofs.
Local Open Scope Z_scope.

(** ** The sort keeps the order of the types not seen yet *)
Section Stable.
  Context {A : Type} (key : A → Z) (cmp : A → A → bool).

  Lemma insert_left_zero v l :
    key v = 0 → (∀ x, x ∈ l → cmp v x = (key x <? key v)) → (∀ x, x ∈ l → 0 <= key x) →
    insert_left cmp v l = v :: l.
  Proof.
    intros Hv Hc H0. destruct l as [|x l]; [done|]. cbn [insert_left].
    rewrite Hc by left. pose proof (H0 x ltac:(left)). rewrite (proj2 (Z.ltb_ge _ _)) by lia. done.
  Qed.

  Lemma insert_left_nonzero v l :
    key v ≠ 0 → filter (λ e, key e = 0) (insert_left cmp v l) = filter (λ e, key e = 0) l.
  Proof.
    intros Hv. induction l as [|x l IH]; cbn [insert_left].
    { by rewrite filter_cons_False. }
    destruct (cmp v x).
    - rewrite !filter_cons, IH. done.
    - by rewrite filter_cons_False.
  Qed.

  Lemma insertSort_fold_zeros l pre acc :
    agrees key cmp (pre ++ l) → acc ≡ₚ pre → (∀ x, x ∈ pre ++ l → 0 <= key x) →
    filter (λ e, key e = 0) (fold_left (λ acc v, insert_left cmp v acc) l acc)
    = reverse (filter (λ e, key e = 0) l) ++ filter (λ e, key e = 0) acc.
  Proof.
    revert pre acc. induction l as [|v l IH]; intros pre acc Ha Hp H0; cbn [fold_left]; [done|].
    rewrite (IH (pre ++ [v])).
    - assert (∀ x, x ∈ acc → cmp v x = (key x <? key v)) as Hc.
      { intros x Hx. rewrite Hp in Hx. apply elem_of_list_lookup in Hx as [j Hj].
        apply lookup_lt_Some in Hj as Hlt. eapply (Ha (length pre) j); [lia| |].
        + rewrite lookup_app_r by lia. by rewrite Nat.sub_diag.
        + by rewrite lookup_app_l by lia. }
      rewrite (filter_cons _ v l). case_decide as Hv.
      + rewrite insert_left_zero; [|done|done|].
        * rewrite filter_cons_True by done. rewrite reverse_cons, <- app_assoc. done.
        * intros x Hx. apply H0. rewrite Hp in Hx. apply elem_of_app. by left.
      + by rewrite insert_left_nonzero.
    - by rewrite <- app_assoc.
    - rewrite insert_left_perm, Hp. by rewrite <- Permutation_cons_append.
    - by rewrite <- app_assoc.
  Qed.

  Lemma insertSort_zeros l :
    agrees key cmp l → (∀ x, x ∈ l → 0 <= key x) →
    filter (λ e, key e = 0) (insertSort cmp l) = filter (λ e, key e = 0) l.
  Proof.
    intros Ha H0. unfold insertSort. rewrite rev_alt. change (rev_append ?r []) with (reverse r).
    rewrite filter_reverse, (insertSort_fold_zeros l []); [|done|done|done].
    rewrite app_nil_r. by rewrite reverse_involutive.
  Qed.

  Lemma sorted_split l :
    (∀ i j a b, (i < j)%nat → l !! i = Some a → l !! j = Some b → key b <= key a) →
    (∀ x, x ∈ l → 0 <= key x) →
    l = filter (λ e, key e ≠ 0) l ++ filter (λ e, key e = 0) l.
  Proof.
    induction l as [|x l IH]; intros Hs H0; [done|].
    assert (l = filter (λ e, key e ≠ 0) l ++ filter (λ e, key e = 0) l) as E.
    { apply IH.
      - intros i j a b Hij Hi Hj. apply (Hs (S i) (S j)); [lia|done|done].
      - intros y Hy. apply H0. by right. }
    destruct (decide (key x = 0)) as [Hx|Hx].
    - rewrite (filter_cons_False _ x l) by tauto. rewrite (filter_cons_True _ x l) by done.
      assert (filter (λ e, key e ≠ 0) l = []) as En.
      { apply elem_of_nil_inv. intros y [Hy Hin]%elem_of_list_filter.
        apply elem_of_list_lookup in Hin as Hj. destruct Hj as [j Hj].
        pose proof (Hs 0%nat (S j) x y ltac:(lia) eq_refl Hj). pose proof (H0 y ltac:(by right)). lia. }
      rewrite En in *. simpl in *. by rewrite <- E.
    - rewrite filter_cons_True by done. rewrite (filter_cons_False _ x l) by done.
      simpl. by rewrite <- E.
  Qed.
End Stable.

Lemma rkey_nonneg e : 0 <= e.2 → 0 <= rkey e.
Proof. intros H. unfold rkey. case_bool_decide; [lia|]. destruct (0 <? e.2) eqn:?; lia. Qed.
Lemma rkey_zero e : 0 <= e.2 → rkey e = 0 ↔ e.2 = 0.
Proof. intros H. unfold rkey. case_bool_decide; [lia|]. destruct (0 <? e.2) eqn:?; lia. Qed.

Lemma count_pos (dts : list ntype) t : 0 < count_if (λ u, u = t) dts ↔ t ∈ dts.
Proof.
  unfold count_if. split.
  - intros H. destruct (filter (λ u, u = t) dts) as [|u l] eqn:E; [simpl in H; lia|].
    assert (u ∈ filter (λ u, u = t) dts) as Hu by (rewrite E; left).
    apply elem_of_list_filter in Hu as [-> ?]. done.
  - intros H. assert (t ∈ filter (λ u, u = t) dts) as Hu by (by apply elem_of_list_filter).
    destruct (filter (λ u, u = t) dts); [by apply elem_of_nil in Hu|]. simpl. lia.
Qed.

Lemma all_ntypes_all t : t ∈ all_ntypes.
Proof. apply (bool_decide_unpack _). by destruct t. Qed.

(** the state after answers [dts] *)
Definition guess_inv (dts : list ntype) (r : list (ntype * Z)) : Prop :=
  nrank_ok dts r ∧ (filter (λ e, rkey e = 0) r).*1 = filter (λ t, t ∉ dts) all_ntypes.

Lemma newRank_inv : guess_inv [] newRank.
Proof. split; [apply newRank_ok|]. by vm_compute. Qed.

(** the types seen are first, then the others in the order of [all_ntypes] *)
Lemma guess_inv_split dts r :
  guess_inv dts r →
  ∃ nz zs, r = nz ++ zs ∧ zs.*1 = filter (λ t, t ∉ dts) all_ntypes ∧ (∀ t n, (t, n) ∈ nz → t ∈ dts ∧ 0 < n) ∧
    (∀ t, t ∈ dts → ∃ n, (t, n) ∈ nz) ∧ (∀ t n, (t, n) ∈ zs → n = 0).
Proof.
  unfold guess_inv, nrank_ok, nrank in *. intros [(Hp & Hc & Hs) Hz].
  assert (∀ e, e ∈ r → 0 <= e.2) as H0.
  { intros [t n] Hin. cbn. apply Hc in Hin. subst n. unfold count_if. lia. }
  exists (filter (λ e, rkey e ≠ 0) r), (filter (λ e, rkey e = 0) r). split_and!.
  - apply (sorted_split rkey cmpDtypes); [exact Hs|]. intros x Hx. by apply rkey_nonneg, H0.
  - done.
  - intros t n [Hk Hin]%elem_of_list_filter. pose proof (H0 _ Hin) as Hn. cbn in Hn.
    rewrite rkey_zero in Hk by done. cbn in Hk. split; [|lia].
    apply count_pos. rewrite <- (Hc t n Hin). lia.
  - intros t Ht. assert (t ∈ r.*1) as Hin.
    { rewrite Hp. apply all_ntypes_all. }
    apply elem_of_list_fmap in Hin as ([u n] & -> & Hin). cbn in Ht. exists n.
    apply elem_of_list_filter. split; [|done]. rewrite rkey_zero by (by apply H0). cbn.
    rewrite (Hc u n Hin). apply count_pos in Ht. lia.
  - intros t n [Hk Hin]%elem_of_list_filter. by apply rkey_zero in Hk; [|by apply H0].
Qed.

Lemma list_filter_all {A} (P : A → Prop) `{∀ x, Decision (P x)} l : Forall P l → filter P l = l.
Proof. induction 1; [done|]. rewrite filter_cons_True by done. by f_equal. Qed.

Lemma zeros_insert (r : list (ntype * Z)) k dt cnt :
  NoDup r.*1 → r !! k = Some (dt, cnt) → 0 <= cnt →
  (filter (λ e, rkey e = 0) (<[k := (dt, cnt + 1)]> r)).*1
  = filter (λ t, t ≠ dt) (filter (λ e, rkey e = 0) r).*1.
Proof.
  revert k. induction r as [|e r IH]; intros k Hnd Hk Hc; [done|].
  rewrite fmap_cons in Hnd. apply list.NoDup_cons in Hnd as [Hni Hnd]. destruct k as [|k].
  - injection Hk as ->. cbn [list_insert insert]. change (<[0%nat:=?x]> (?y :: ?l)) with (x :: l).
    rewrite filter_cons_False by (rewrite rkey_zero; cbn; lia).
    assert (filter (λ t, t ≠ dt) (filter (λ e, rkey e = 0) r).*1 = (filter (λ e, rkey e = 0) r).*1) as E.
    { apply list_filter_all. apply list.Forall_forall. intros t Ht Hn. subst t. apply Hni. cbn [fst].
      apply elem_of_list_fmap in Ht as (x & -> & [_ Hx]%elem_of_list_filter). apply elem_of_list_fmap. by exists x. }
    rewrite (filter_cons (λ e, rkey e = 0) (dt, cnt) r). case_decide.
    + rewrite fmap_cons, filter_cons_False by (cbn; tauto). by rewrite E.
    + by rewrite E.
  - change (<[S k:=?x]> (?y :: ?l)) with (y :: <[k := x]> l).
    assert (e.1 ≠ dt) as Hne.
    { intros E. apply Hni. rewrite E. apply elem_of_list_fmap. exists (dt, cnt). split; [done|].
      by eapply elem_of_list_lookup_2. }
    rewrite !(filter_cons (λ e, rkey e = 0) e). case_decide.
    + rewrite !fmap_cons, filter_cons_True by done. f_equal. by apply IH.
    + by apply IH.
Qed.

(** the types before a type *)
Fixpoint upto (t : ntype) (l : list ntype) : list ntype :=
  match l with
  | [] => []
  | u :: l => if decide (u = t) then [] else u :: upto t l
  end.
Lemma types_before pre t post : all_ntypes = pre ++ t :: post → pre = upto t all_ntypes.
Proof.
  intros H. pose proof all_ntypes_NoDup as Hnd. rewrite H in *. clear H.
  induction pre as [|u pre IH]; cbn [app upto].
  - by rewrite decide_True.
  - cbn [app] in Hnd. apply list.NoDup_cons in Hnd as [Hni Hnd].
    rewrite decide_False; [by f_equal; apply IH|].
    intros ->. apply Hni. apply elem_of_app. right. left.
Qed.

(** ** Guessing the type of a text *)
Definition ok_of {A} (r : res A) : bool := match r with Ok _ => true | Err _ => false end.

Lemma first_fit_find fits r i :
  (∃ e, e ∈ r ∧ ok_of (fits e.1) = true) →
  ∃ k e c, list_find (λ e, Is_true (ok_of (fits e.1))) r = Some (k, e) ∧ fits e.1 = Ok c ∧
    ((∀ j x y, (j < k)%nat → r !! j = Some x → fits x.1 = Err y → y = ValueError) →
     first_fit fits i r = Ok ((i + k)%nat, e, c)).
Proof.
  revert i. induction r as [|e r IH]; intros i (x & Hx & Hok).
  { by apply elem_of_nil in Hx. }
  cbn [first_fit list_find]. destruct (fits e.1) as [c|y] eqn:E.
  - exists 0%nat, e, c. rewrite decide_True by done. rewrite Nat.add_0_r. done.
  - rewrite decide_False by (cbn; tauto).
    destruct (IH (S i)) as (k & e' & c & Hf & Hc & Hff).
    { exists x. apply elem_of_cons in Hx as [->|Hx]; [|done]. by rewrite E in Hok. }
    exists (S k), e', c. rewrite Hf. cbn. split_and!; [done|done|]. intros Hplain.
    pose proof (Hplain 0%nat e y ltac:(lia) eq_refl E) as ->.
    rewrite Hff; [do 2 f_equal; f_equal; lia|].
    intros j x' y' Hj Hx'. apply (Hplain (S j)); [lia|done].
Qed.

Section Guess.
  Context (fa : float_arith) (checks : bool).
  Notation R := (read fa checks).

  (** the first type of [all_ntypes] that reads [s] *)
  Definition first_type (s : list Z) (t : ntype) : Prop :=
    ∃ pre post, all_ntypes = pre ++ t :: post ∧ ok_of (R t s) = true ∧ ∀ u, u ∈ pre → ok_of (R u s) = false.

  Lemma first_type_exists s : ∃ t, first_type s t.
  Proof.
    destruct (list_find (λ t, Is_true (ok_of (R t s))) all_ntypes) as [[k t]|] eqn:E.
    - apply list_find_Some in E as (Hk & Hok & Hbefore). exists t.
      exists (take k all_ntypes), (drop (S k) all_ntypes). split_and!.
      + by rewrite take_drop_middle.
      + by apply Is_true_true.
      + intros u [j Hj]%elem_of_list_lookup. apply lookup_take_Some in Hj as [Hj Hlt].
        specialize (Hbefore j u Hj Hlt). by destruct (ok_of (R u s)).
    - apply list_find_None in E. rewrite list.Forall_forall in E.
      exfalso. apply (E DT_STRING); [apply all_ntypes_all|done].
  Qed.

  (** the types before, and those of [P], refuse with [ValueError] *)
  Definition plain_to (P : ntype → Prop) (s : list Z) : Prop :=
    ∀ u x, P u ∨ (∃ t, first_type s t ∧ u ∈ upto t all_ntypes) → R u s = Err x → x = ValueError.

  (** the guess is a type seen before that reads the text, else the first type *)
  Lemma updateRank_text_ok (P : ntype → Prop) dts r s :
    guess_inv dts r → plain_to P s → (∀ t, first_type s t → P t) →
    (∀ t, t ∈ dts → P t) →
    ∃ dt r', updateRank_text fa checks r s = Ok (dt, r') ∧ guess_inv (dts ++ [dt]) r' ∧
      P dt ∧ readable R dt s ∧ (dt ∈ dts ∨ first_type s dt).
  Proof.
    intros Hinv Hplain Hfirst HP. pose proof Hinv as [Hok Hzeros].
    unfold updateRank_text.
    pose proof Hok as (Hp & Hc & Hs).
    destruct (first_fit_find (λ t, R t s) r 0) as (k & e & c & Hfind & Hc' & Hff).
    { assert (DT_STRING ∈ r.*1) as Hin by (rewrite Hp; apply all_ntypes_all).
      apply elem_of_list_fmap in Hin as (e & He & Hin). exists e. split; [done|]. by rewrite <- He. }
    (* the same as the ranking with a set of accepted types *)
    pose proof (updateRank_ok (λ t s, ok_of (R t s)) dts r s Hok) as Hu. unfold updateRank in Hu.
    assert (list_find (λ e, Is_true (bool_decide (e.1 = DT_STRING) || ok_of (R e.1 s))) r = Some (k, e)) as Hfind'.
    { rewrite <- Hfind. apply list_find_ext. intros x. split.
      - intros H. apply Is_true_true in H. apply orb_true_iff in H as [H|H]; [|by apply Is_true_true].
        apply bool_decide_eq_true in H. by rewrite H.
      - intros H. apply Is_true_true. apply Is_true_true in H. rewrite H. by rewrite orb_true_r. }
    unfold nrank in *. rewrite Hfind' in Hu. destruct e as [dt cnt]. cbn [fst snd] in *. destruct Hu as [_ Hok'].
    destruct (guess_inv_split dts r Hinv) as (nz & zs & Hr & Hzs & Hnz1 & Hnz2 & Hzs0).
    apply list_find_Some in Hfind as (Hk & Hacc & Hbefore). cbn [fst] in *.
    assert (dt ∈ dts ∨ first_type s dt) as Hdt.
    { subst r. apply lookup_app_Some in Hk as [Hk|[Hlen Hk]].
      - left. by eapply Hnz1, elem_of_list_lookup_2.
      - right. destruct (first_type_exists s) as (t & pre & post & Hall & Hokt & Hpre).
        assert (t ∉ dts) as Ht.
        { intros Ht. apply Hnz2 in Ht as [n Hn]. apply elem_of_list_lookup in Hn as [j Hj].
          apply lookup_lt_Some in Hj as Hlt.
          apply (Hbefore j (t, n)); [|lia|cbn; by rewrite Hokt]. by rewrite lookup_app_l by lia. }
        rewrite Hall in Hzs. rewrite list.filter_app, filter_cons_True in Hzs by done.
        set (m := length (filter (λ t, t ∉ dts) pre)) in *.
        assert (zs.*1 !! m = Some t) as Hm.
        { rewrite Hzs. rewrite lookup_app_r by lia. subst m. by rewrite Nat.sub_diag. }
        rewrite list_lookup_fmap in Hm. apply fmap_Some in Hm as ([u n] & Hm & ->). cbn [fst] in *.
        assert (m = k - length nz)%nat as ->.
        { destruct (Nat.lt_trichotomy m (k - length nz)) as [Hlt|[Heq|Hgt]]; [|done|].
          - exfalso. apply (Hbefore (length nz + m)%nat (u, n)); [|lia|cbn; by rewrite Hokt].
            rewrite lookup_app_r by lia. by replace (length nz + m - length nz)%nat with m by lia.
          - exfalso. assert (zs.*1 !! (k - length nz)%nat = Some dt) as Hd by (by rewrite list_lookup_fmap, Hk).
            rewrite Hzs, lookup_app_l in Hd by lia. apply elem_of_list_lookup_2, elem_of_list_filter in Hd as [_ Hd].
            apply Hpre in Hd. by rewrite Hd in Hacc. }
        rewrite Hk in Hm. injection Hm as -> ->. exists pre, post. done. }
    rewrite Hff.
    2:{ intros j [u n] y Hj Hu Hy. cbn [fst] in Hy. apply (Hplain u y); [|done].
        destruct (decide (u ∈ dts)) as [Hin|Hnin]; [left; by apply HP|]. right.
        subst r. apply lookup_app_Some in Hu as [Hu|[Hl Hu]].
        { exfalso. apply Hnin. by eapply Hnz1, elem_of_list_lookup_2. }
        apply lookup_app_Some in Hk as [Hk|[Hlen Hk]].
        { apply lookup_lt_Some in Hk. lia. }
        destruct Hdt as [Hdt|Hdt].
        { exfalso. assert (dt ∈ zs.*1) as Hz.
          { apply elem_of_list_fmap. exists (dt, cnt). split; [done|]. by eapply elem_of_list_lookup_2. }
          rewrite Hzs in Hz. by apply elem_of_list_filter in Hz as [Hz _]. }
        exists dt. split; [done|]. destruct Hdt as (pre & post & Hall & _ & _).
        rewrite <- (types_before pre dt post Hall).
        assert (zs.*1 !! (j - length nz)%nat = Some u) as Hju by (by rewrite list_lookup_fmap, Hu).
        assert (zs.*1 !! (k - length nz)%nat = Some dt) as Hkd by (by rewrite list_lookup_fmap, Hk).
        assert (dt ∉ dts) as Hd.
        { apply elem_of_list_lookup_2 in Hkd. rewrite Hzs in Hkd. by apply elem_of_list_filter in Hkd as [? _]. }
        assert (NoDup zs.*1) as Hndz by (rewrite Hzs; apply list.NoDup_filter, all_ntypes_NoDup).
        rewrite Hzs, Hall, list.filter_app, filter_cons_True in Hkd, Hju, Hndz by done.
        assert (k - length nz = length (filter (λ t, t ∉ dts) pre))%nat as Hpos.
        { eapply NoDup_lookup; [exact Hndz|exact Hkd|]. rewrite lookup_app_r by lia. by rewrite Nat.sub_diag. }
        rewrite lookup_app_l in Hju by lia. by apply elem_of_list_lookup_2, elem_of_list_filter in Hju as [_ ?]. }
    cbn [res_map]. rewrite Nat.add_0_l. cbn [fst snd]. eexists _, _. split; [reflexivity|].
    split_and!.
    - split; [done|].
      set (r2 := <[k := (dt, cnt + 1)]> r) in *.
      assert (r2.*1 = r.*1) as Hfst.
      { subst r2. rewrite list_fmap_insert. cbn [fst]. apply list_insert_id.
        by rewrite list_lookup_fmap, Hk. }
      assert (∀ x, x ∈ r2 → 0 <= x.2) as H0.
      { intros [t n] Hin. rewrite <- (insertSort_perm cmpDtypesStringless r2) in Hin.
        apply (proj1 (proj2 Hok')) in Hin. subst n. cbn. unfold count_if. lia. }
      rewrite (insertSort_zeros rkey cmpDtypesStringless r2).
      + subst r2. rewrite zeros_insert; [|rewrite Hp; apply all_ntypes_NoDup|done|].
        * rewrite Hzeros, list_filter_filter. apply list_filter_iff. intros t.
          rewrite not_elem_of_app, elem_of_list_singleton. tauto.
        * apply elem_of_list_lookup_2, Hc in Hk. subst cnt. unfold count_if. lia.
      + intros i j a b Hij Hi Hj. apply cmp_rkey.
        * by eapply H0, elem_of_list_lookup_2.
        * by eapply H0, elem_of_list_lookup_2.
        * intros E. apply Hij. eapply (NoDup_lookup r2.*1).
          -- rewrite Hfst, Hp. apply all_ntypes_NoDup.
          -- by rewrite list_lookup_fmap, Hi.
          -- by rewrite E, list_lookup_fmap, Hj.
      + intros x Hx. by apply rkey_nonneg, H0.
    - destruct Hdt as [Hdt|Hdt]; [by apply HP|by apply Hfirst].
    - by exists c.
    - done.
  Qed.

  Lemma collect_ok (P : ntype → Prop) col dts r longest :
    guess_inv dts r → (∀ f, f ∈ col → plain_to P (field_text f)) →
    (∀ f t, f ∈ col → first_type (field_text f) t → P t) → (∀ t, t ∈ dts → P t) →
    ∃ dts' longest' r', collectPageInfo fa checks col longest r = Ok (longest', r') ∧
      guess_inv (dts ++ dts') r' ∧ longest <= longest' ∧
      Forall2 (λ f dt, P dt ∧ readable R dt (field_text f) ∧
                       (dt = DT_STRING → runeLen (field_text f) <= longest')) col dts'.
  Proof.
    revert dts r longest. induction col as [|f col IH]; intros dts r longest Hinv Hplain Hfirst HP.
    { exists [], longest, r. rewrite app_nil_r. split_and!; [done|done|lia|constructor]. }
    destruct (updateRank_text_ok P dts r (field_text f)) as (dt & r' & Hu & Hinv' & HPdt & Hread & _).
    - done.
    - apply Hplain. left.
    - intros t. apply Hfirst. left.
    - done.
    - cbn [collectPageInfo]. rewrite Hu. cbn [res_bind].
      edestruct (IH (dts ++ [dt]) r') as (dts' & longest' & r'' & -> & Hinv'' & Hle & HF).
      + done.
      + intros g Hg. apply Hplain. by right.
      + intros g t Hg. apply Hfirst. by right.
      + intros t [Ht|Ht%elem_of_list_singleton]%elem_of_app; [by apply HP|by subst t].
      + exists (dt :: dts'), longest', r''. split_and!; [done|by rewrite <- app_assoc in Hinv''| |].
        * case_bool_decide; lia.
        * constructor; [|done]. split_and!; [done|done|]. intros ->. rewrite bool_decide_true in Hle by done. lia.
  Qed.
End Guess.

(** ** The type of the page *)
Definition page_kind (t1 : ntype) (ts : list ntype) : page_type :=
  let p := if bool_decide (t1 = DT_STRING) then PG_UNICODE else fold_left overlap ts (first_page_type t1) in
  match p with PG_UNICODE => PG_UNICODE | PG_INT => PG_INT | PG_FLOAT => PG_FLOAT | _ => PG_OBJECT end.

Lemma page_type_loop_seen (nz : list (ntype * Z)) p e zs :
  (∀ x, x ∈ nz → 0 < x.2) → e.2 = 0 →
  page_type_loop (Some p) (nz ++ e :: zs) = Ok (Some (fold_left overlap nz.*1 p)).
Proof.
  revert p. induction nz as [|[t n] nz IH]; intros p Hnz He; destruct e as [u m]; cbn [snd] in *.
  - subst m. done.
  - cbn [page_type_loop app]. pose proof (Hnz (t, n) ltac:(left)) as Hn. cbn [snd] in Hn.
    rewrite (proj2 (Z.eqb_neq n 0)) by lia. rewrite IH; [done| |done]. intros x Hx. apply Hnz. by right.
Qed.

Lemma header_ok dts r :
  guess_inv dts r → dts ≠ [] → (∃ t, t ∉ dts) →
  ∃ t1 ts r', (∀ t, t ∈ t1 :: ts ↔ t ∈ dts) ∧ dumpPageHeader r = Ok (page_kind t1 ts, r') ∧
    (page_kind t1 ts = PG_OBJECT → nrank_ok dts r') ∧
    (page_kind t1 ts ≠ PG_OBJECT → ∃ n rest,
       r' = (t1, n) :: rest ∧
       (∀ i j a b, (i < j)%nat → r' !! i = Some a → r' !! j = Some b → b.2 <= a.2)) ∧
    r' ≡ₚ r ∧ NoDup (t1 :: ts).
Proof.
  intros [Hok _] Hne [t0 Ht0]. pose proof Hok as (Hp & Hc & Hs). unfold nrank in *.
  set (r1 := insertSort cmpDtypes r).
  pose proof (insertSort_perm cmpDtypes r) as Hperm. fold r1 in Hperm.
  assert (∀ x, x ∈ r → 0 <= x.2) as H0.
  { intros [t n] Hin. apply Hc in Hin. subst n. cbn. unfold count_if. lia. }
  assert (∀ i j a b, (i < j)%nat → r1 !! i = Some a → r1 !! j = Some b → b.2 <= a.2) as Hsort.
  { intros i j a b Hij Hi Hj. eapply (insertSort_sorted snd cmpDtypes r); [|done|done|done].
    intros ? ? ? ? _ _ _. done. }
  pose proof (sorted_split snd cmpDtypes r1 Hsort) as Hsplit. specialize (Hsplit ltac:(intros x Hx; rewrite Hperm in Hx; by apply H0)).
  set (nz := filter (λ e, e.2 ≠ 0) r1) in *. set (zs := filter (λ e, e.2 = 0) r1) in *.
  assert (∀ t, t ∈ nz.*1 ↔ t ∈ dts) as Hnz.
  { intros t. rewrite elem_of_list_fmap. split.
    - intros ([u n] & -> & [Hn Hin]%elem_of_list_filter). cbn [fst snd] in *. rewrite Hperm in Hin.
      apply count_pos. rewrite <- (Hc _ _ Hin). pose proof (H0 _ Hin). cbn [snd] in *. lia.
    - intros Ht. pose proof (all_ntypes_all t) as Hin. rewrite <- Hp in Hin.
      apply elem_of_list_fmap in Hin as ([u n] & -> & Hin). exists (u, n). split; [done|].
      apply elem_of_list_filter. cbn [fst snd] in *. rewrite Hperm. split; [|done].
      rewrite (Hc _ _ Hin). apply count_pos in Ht. lia. }
  assert (∃ e zs', zs = e :: zs' ∧ e.2 = 0) as (e & zs' & Hzs & He).
  { pose proof (all_ntypes_all t0) as Hin. rewrite <- Hp in Hin.
    apply elem_of_list_fmap in Hin as ([u n] & -> & Hin).
    assert ((u, n) ∈ zs) as Hz.
    { apply elem_of_list_filter. rewrite Hperm. split; [|done]. cbn [fst snd] in *.
      pose proof (H0 _ Hin). cbn [snd] in *. rewrite (Hc _ _ Hin) in *.
      destruct (decide (0 < count_if (λ v, v = u) dts)) as [Hpos|]; [|lia].
      by apply count_pos in Hpos. }
    destruct zs as [|e zs'] eqn:E; [by apply elem_of_nil in Hz|]. exists e, zs'. split; [done|].
    assert (e ∈ filter (λ e, e.2 = 0) r1) as Hf by (fold zs; rewrite E; left).
    by apply elem_of_list_filter in Hf as [? _]. }
  destruct nz as [|[t1 n1] nz'] eqn:Enz.
  { exfalso. destruct dts as [|d dts]; [done|]. assert (d ∈ @nil ntype) as Hd by (apply (Hnz d); left).
    by apply elem_of_nil in Hd. }
  assert (∀ x, x ∈ (t1, n1) :: nz' → 0 < x.2) as Hpos.
  { intros x Hx. rewrite <- Enz in Hx. subst nz. apply elem_of_list_filter in Hx as [Hx Hin].
    rewrite Hperm in Hin. apply H0 in Hin. lia. }
  exists t1, nz'.*1.
  assert (page_type_loop None r1 = Ok (Some (if bool_decide (t1 = DT_STRING) then PG_UNICODE
                                             else fold_left overlap nz'.*1 (first_page_type t1)))) as Hloop.
  { rewrite Hsplit, Hzs. cbn [app page_type_loop]. pose proof (Hpos (t1, n1) ltac:(left)) as Hn1. cbn [snd] in Hn1.
    rewrite (proj2 (Z.eqb_neq n1 0)) by lia. case_bool_decide; [done|].
    apply page_type_loop_seen; [|done]. intros x Hx. apply Hpos. by right. }
  unfold dumpPageHeader. fold r1. rewrite Hloop. cbn [res_bind]. unfold page_kind.
  assert (∀ t n, (t, n) ∈ r1 → n = count_if (λ u, u = t) dts) as Hc1.
  { intros t n Hin. rewrite Hperm in Hin. by apply Hc. }
  assert (nrank_ok dts (insertSort cmpDtypesStringless r1)) as Hok2.
  { pose proof (insertSort_perm cmpDtypesStringless r1) as Hperm2. unfold nrank_ok, nrank. split_and!.
    - rewrite (fmap_Permutation fst _ _ Hperm2), (fmap_Permutation fst _ _ Hperm). done.
    - intros t n Hin. rewrite Hperm2 in Hin. by apply Hc1.
    - intros i j a b Hij Ha Hb. eapply (insertSort_sorted rkey); [|done|done|done].
      intros i' j' a' b' Hij' Hi Hj. apply cmp_rkey.
      + apply H0. rewrite <- Hperm. by eapply elem_of_list_lookup_2.
      + apply H0. rewrite <- Hperm. by eapply elem_of_list_lookup_2.
      + intros E. apply Hij'. eapply (NoDup_lookup r1.*1).
        * rewrite (fmap_Permutation fst _ _ Hperm), Hp. apply all_ntypes_NoDup.
        * by rewrite list_lookup_fmap, Hi.
        * by rewrite E, list_lookup_fmap, Hj. }
  assert (NoDup (t1 :: nz'.*1)) as Hnd.
  { assert (NoDup r1.*1) as Hnd by (rewrite (fmap_Permutation fst _ _ Hperm), Hp; apply all_ntypes_NoDup).
    rewrite Hsplit, fmap_app in Hnd. by apply list.NoDup_app in Hnd as [Hnd _]. }
  assert (∃ n rest, r1 = (t1, n) :: rest ∧
       (∀ i j a b, (i < j)%nat → r1 !! i = Some a → r1 !! j = Some b → b.2 <= a.2)) as Hr1.
  { exists n1, (nz' ++ zs). split; [exact Hsplit|done]. }
  destruct (if bool_decide (t1 = DT_STRING) then PG_UNICODE else fold_left overlap nz'.*1 (first_page_type t1));
    eexists; (split; [exact Hnz|]); (split; [reflexivity|]); (split; [try done|split; [try done|split; [try done|exact Hnd]]]).
  all: by rewrite (insertSort_perm cmpDtypesStringless r1).
Qed.

Definition seen_page (t1 : ntype) (ts : list ntype) : page_type := fold_left overlap ts (first_page_type t1).

Lemma seen_page_ind (Q : page_type → list ntype → Prop) t1 ts :
  Q (first_page_type t1) [t1] →
  (∀ p seen t, t ∈ ts → Q p seen → Q (overlap p t) (seen ++ [t])) →
  Q (seen_page t1 ts) (t1 :: ts).
Proof.
  intros H1 H2. induction ts as [|t ts IH] using rev_ind; [done|].
  unfold seen_page in *. rewrite fold_left_app. cbn [fold_left].
  change (t1 :: ts ++ [t]) with ((t1 :: ts) ++ [t]). apply H2.
  - apply elem_of_app. right. by left.
  - apply IH. intros p seen u Hu. apply H2. apply elem_of_app. by left.
Qed.

Lemma page_kind_unicode t1 ts : page_kind t1 ts = PG_UNICODE ↔ t1 = DT_STRING.
Proof.
  unfold page_kind. case_bool_decide as H; [tauto|]. split; [|done].
  fold (seen_page t1 ts).
  assert (seen_page t1 ts ≠ PG_UNICODE) as Hn.
  { apply (seen_page_ind (λ p _, p ≠ PG_UNICODE)).
    - by destruct t1.
    - intros p _ t _ Hp. by destruct p, t. }
  by destruct (seen_page t1 ts).
Qed.

Lemma page_kind_int t1 ts : page_kind t1 ts = PG_INT → t1 ≠ DT_STRING ∧ seen_page t1 ts = PG_INT.
Proof.
  unfold page_kind. case_bool_decide as H; [done|]. fold (seen_page t1 ts). by destruct (seen_page t1 ts).
Qed.
Lemma page_kind_float t1 ts : page_kind t1 ts = PG_FLOAT → t1 ≠ DT_STRING ∧ seen_page t1 ts = PG_FLOAT.
Proof.
  unfold page_kind. case_bool_decide as H; [done|]. fold (seen_page t1 ts). by destruct (seen_page t1 ts).
Qed.

Definition is_num (t : ntype) : bool := isAnyInt t || isAnyFloat t.

Lemma elem_of_snoc {A} (x : A) l y : x ∈ l ++ [y] ↔ x ∈ l ∨ x = y.
Proof. by rewrite elem_of_app, elem_of_list_singleton. Qed.

(** no short dates *)
Lemma seen_apart t1 ts :
  DT_DATE_SHORT ∉ t1 :: ts →
  (seen_page t1 ts = PG_INT → ∀ t, t ∈ t1 :: ts → isAnyInt t = true) ∧
  (seen_page t1 ts = PG_FLOAT → ∀ t, t ∈ t1 :: ts → is_num t = true).
Proof.
  intros [Hne1 Hne]%not_elem_of_cons.
  enough ((seen_page t1 ts = PG_INT → ∀ t, t ∈ t1 :: ts → isAnyInt t = true) ∧
    (seen_page t1 ts = PG_FLOAT → ∀ t, t ∈ t1 :: ts → is_num t = true) ∧ seen_page t1 ts ≠ PG_DATE_SHORT) by tauto.
  apply (seen_page_ind (λ p seen, (p = PG_INT → ∀ t, t ∈ seen → isAnyInt t = true) ∧
                                   (p = PG_FLOAT → ∀ t, t ∈ seen → is_num t = true) ∧ p ≠ PG_DATE_SHORT) t1 ts).
  - split_and!; [intros H t ->%elem_of_list_singleton..|]; by destruct t1.
  - intros p seen t Ht (H1 & H2 & H3).
    assert (t ≠ DT_DATE_SHORT) as Hs by congruence. split_and!.
    + intros Hp u [Hu|Hu]%elem_of_snoc; [apply H1; [|done]|subst u]; destruct p, t; done.
    + intros Hp u [Hu|Hu]%elem_of_snoc.
      * destruct p; [by destruct t| |by apply H2|by destruct t..].
        unfold is_num. by rewrite H1.
      * subst u. destruct p, t; done.
    + by destruct p, t.
Qed.

(** short dates and numbers *)
Lemma seen_numbers t1 ts :
  (∀ t, t ∈ t1 :: ts → t = DT_DATE_SHORT ∨ is_num t = true) →
  seen_page t1 ts = PG_INT → ∀ t, t ∈ t1 :: ts → t = DT_DATE_SHORT ∨ isAnyInt t = true.
Proof.
  intros Hall.
  enough ((seen_page t1 ts = PG_INT → ∀ t, t ∈ t1 :: ts → t = DT_DATE_SHORT ∨ isAnyInt t = true) ∧
    (seen_page t1 ts = PG_DATE_SHORT → ∀ t, t ∈ t1 :: ts → t = DT_DATE_SHORT)) by tauto.
  apply (seen_page_ind (λ p seen, (p = PG_INT → ∀ t, t ∈ seen → t = DT_DATE_SHORT ∨ isAnyInt t = true) ∧
                                   (p = PG_DATE_SHORT → ∀ t, t ∈ seen → t = DT_DATE_SHORT)) t1 ts).
  - split; intros H t ->%elem_of_list_singleton; destruct t1; try done; auto.
  - intros p seen t Ht (H1 & H2). specialize (Hall t ltac:(by right)). split.
    + intros Hp u [Hu|Hu]%elem_of_snoc.
      * destruct p; try (by destruct t); [by apply H1|]. left. by apply H2.
      * subst u. destruct Hall as [->|Hn]; [by left|]. right. destruct p, t; done.
    + intros Hp u [Hu|Hu]%elem_of_snoc.
      * destruct p; try (by destruct t). by apply H2.
      * subst u. destruct Hall as [->|Hn]; [done|]. destruct p, t; done.
Qed.

(** no numbers *)
Lemma seen_no_numbers t1 ts :
  (∀ t, t ∈ t1 :: ts → is_num t = false) → seen_page t1 ts ≠ PG_INT ∧ seen_page t1 ts ≠ PG_FLOAT.
Proof.
  intros Hall. apply (seen_page_ind (λ p _, p ≠ PG_INT ∧ p ≠ PG_FLOAT) t1 ts).
  - specialize (Hall t1 ltac:(left)). by destruct t1.
  - intros p _ t Ht [H1 H2]. specialize (Hall t ltac:(by right)). by destruct p, t.
Qed.

(** ** Whole numbers are read as floats too *)
Lemma parse_digits_float ds v n : parse_digits v ds = Ok n → (float_digits true ds).2 = [].
Proof.
  revert v. induction ds as [|d ds IH]; intros v H; [done|]. cbn [parse_digits float_digits] in *.
  destruct (isDigit d).
  - apply IH in H. by destruct (float_digits true ds).
  - destruct (d =? 95) eqn:E; [|done]. by apply IH in H.
Qed.

Lemma parse_uint_float ds n : parse_uint ds = Ok n → ∃ k, float_digits false ds = (S k, []).
Proof.
  destruct ds as [|d ds]; [done|]. unfold parse_uint. destruct (isDigit d) eqn:E; [|done].
  cbn [parse_digits float_digits]. rewrite E. intros H%parse_digits_float.
  destruct (float_digits true ds) as [k r]. cbn in H. subst r. by exists k.
Qed.

Lemma parseInt_float s n : parseInt s = Ok n → parseFloat_ok s = true.
Proof.
  intros H. unfold parseInt in H. destruct s as [|d ds]; [done|].
  assert (∃ m, parse_uint (if (d =? 43) || (d =? 45) then ds else d :: ds) = Ok m) as [m Hm].
  { destruct (d =? 45) eqn:E45; [|destruct (d =? 43) eqn:E43]; cbn [orb].
    - rewrite orb_true_r. destruct (parse_uint ds); [by eexists|done].
    - destruct (parse_uint ds); [by eexists|done].
    - destruct (parse_uint (d :: ds)); [by eexists|done]. }
  apply parse_uint_float in Hm as [k Hk].
  unfold parseFloat_ok. destruct ((d =? 43) || (d =? 45)); rewrite Hk;
    match goal with |- (if ?b then true else _) = true => by destruct b end.
Qed.

Section Floats.
  Context (fa : float_arith) (checks : bool).
  Notation R := (read fa checks).

  Lemma int_loop_float am s v after n st :
    int_loop checks am s v after = Ok n → fs_frac st = false → fs_exp st = false →
    ∃ st', float_loop fa am s st = Ok st' ∧ fs_exp st' = false.
  Proof.
    revert v after st. induction s as [|c s IH]; intros v after st H Hf He.
    { by exists st. }
    cbn [int_loop float_loop] in *. destruct (isDigit c).
    - rewrite Hf, He. destruct (int_ checks (v * 10 + (c - 48))) as [w|]; [|done]. cbn [res_bind] in H.
      by eapply IH.
    - destruct ((c =? 44) && am || (c =? 46) && negb am); [|done].
      destruct (zlen (c :: s) <? 4); [done|]. rewrite Hf. cbn [orb] in *.
      destruct (bad_group after); [done|]. by eapply IH.
  Qed.

  Lemma inferInt_float simple am s n :
    inferInt checks simple am s = Ok n → ∃ b, inferFloat fa checks simple am s = Ok b.
  Proof.
    unfold inferInt, inferFloat. destruct (no_blanks s) as [|c r]; [done|]. destruct simple.
    { intros H%parseInt_float. rewrite H. by eexists. }
    destruct (isDigit c).
    { intros H. eapply int_loop_float in H as (st & -> & He); [|reflexivity..]. cbn [res_bind].
      unfold float_end. rewrite He. by eexists. }
    destruct ((c =? 43) || (c =? 45)); [|done]. destruct r as [|d r]; [by destruct checks|].
    destruct (isDigit d); [|done]. intros H.
    destruct (int_loop checks am r (d - 48) None) as [v|] eqn:E; [|done].
    eapply int_loop_float in E as (st & -> & He); [|reflexivity..]. cbn [res_bind].
    unfold float_end. rewrite He. by eexists.
  Qed.

  Lemma whole_float s :
    whole R s → readable R DT_FLOAT_SIMPLE s ∨ readable R DT_FLOAT_US s ∨ readable R DT_FLOAT_EU s.
  Proof.
    unfold whole, readable, read.
    intros [[c H]|[[c H]|[c H]]]; [left|right; left|right; right];
      (match type of H with res_map _ ?x = _ => destruct x as [n|] eqn:E; [|done] end);
      apply inferInt_float in E as [b Hb]; exists (CFloat b); by rewrite Hb.
  Qed.

  Lemma numeric_float s :
    numeric R s → readable R DT_FLOAT_SIMPLE s ∨ readable R DT_FLOAT_US s ∨ readable R DT_FLOAT_EU s.
  Proof. intros [H|H]; [by apply whole_float|done]. Qed.

  Lemma numeric_not_empty : ¬ numeric R [].
  Proof. intros [[c H]|[[c H]|[c H]]]%numeric_float; cbn in H; discriminate H. Qed.
  Lemma whole_not_empty : ¬ whole R [].
  Proof. intros H. apply numeric_not_empty. by left. Qed.

  Lemma readable_num t s : is_num t = true → readable R t s → numeric R s.
  Proof.
    unfold numeric, whole. destruct t; cbn; intros Ht H; try done; tauto.
  Qed.
  Lemma readable_int t s : isAnyInt t = true → readable R t s → whole R s.
  Proof. unfold whole. destruct t; cbn; intros Ht H; try done; tauto. Qed.

  (** ** The cells *)
  Lemma read_int t s c : R t s = Ok c → isAnyInt t = true → ∃ n, c = CInt n.
  Proof.
    intros H Ht. destruct t; try done; cbn [read] in H;
      (match type of H with res_map _ ?x = _ => destruct x as [n|]; [|done] end); injection H as <-; by exists n.
  Qed.
  Lemma read_float t s c : R t s = Ok c → isAnyFloat t = true → ∃ n, c = CFloat n.
  Proof.
    intros H Ht. destruct t; try done; cbn [read] in H;
      (match type of H with res_map _ ?x = _ => destruct x as [n|]; [|done] end); injection H as <-; by exists n.
  Qed.

  (** some type of the ranking that counts reads the text *)
  Lemma read_by_ok which (r : nrank) s :
    r.*1 ≡ₚ all_ntypes → (∀ t e, which t = true → R t s = Err e → e = ValueError) →
    (∃ t, which t = true ∧ readable R t s) →
    ∃ t c, read_by (only which (λ t, R t s)) r = Ok c ∧ which t = true ∧ R t s = Ok c.
  Proof.
    intros Hr Hplain (t & Hw & c & Hc). unfold read_by.
    destruct (first_fit_find (only which (λ t, R t s)) r 0) as (k & e & c' & _ & Hc' & Hff).
    - assert (t ∈ r.*1) as Hin by (rewrite Hr; apply all_ntypes_all).
      apply elem_of_list_fmap in Hin as (e & -> & Hin). exists e. split; [done|].
      unfold only. by rewrite Hw, Hc.
    - rewrite Hff.
      + exists e.1, c'. split; [done|]. unfold only in Hc'. by destruct (which e.1).
      + intros j x y _ _. unfold only. destruct (which x.1) eqn:E; [by apply Hplain|]. congruence.
  Qed.

  Lemma dumpPageBody_ok p longest r col (Q : option (list Z) → cell → Prop) :
    (∀ f, f ∈ col → ∃ c, dump_field fa checks p longest r f = Ok c ∧ Q f c) →
    ∃ cs, dumpPageBody fa checks p longest r col = Ok cs ∧ Forall2 Q col cs.
  Proof.
    induction col as [|f col IH]; intros H.
    { exists []. split; [done|constructor]. }
    destruct (H f ltac:(left)) as (c & Hc & HQ).
    destruct IH as (cs & Hcs & HF).
    { intros g Hg. apply H. by right. }
    exists (c :: cs). cbn [dumpPageBody]. rewrite Hc. cbn [res_bind]. rewrite Hcs. split; [done|]. by constructor.
  Qed.

  Lemma letter_not_float simple am c r s :
    no_blanks s = c :: r → toLower c = 116 ∨ toLower c = 102 → inferFloat fa checks simple am s = Err ValueError.
  Proof.
    intros Hs Hc. unfold inferFloat. rewrite Hs.
    assert (isDigit c = false ∧ c ≠ 43 ∧ c ≠ 45 ∧ c ≠ 46 ∧ c ≠ 44) as (Hd & H1 & H2 & H3 & H4).
    { unfold toLower, isDigit in *. destruct ((65 <=? c) && (c <=? 90)) eqn:E.
      - apply andb_true_iff in E as [E1%Z.leb_le E2%Z.leb_le]. split; [|lia].
        apply andb_false_iff. right. apply Z.leb_gt. lia.
      - split; [|lia]. apply andb_false_iff. right. apply Z.leb_gt. lia. }
    rewrite Hd. rewrite !(proj2 (Z.eqb_neq _ _)) by done. cbn [orb andb]. destruct simple; [|done].
    unfold parseFloat_ok. rewrite !(proj2 (Z.eqb_neq _ _)) by done. cbn [orb]. cbn [map].
    rewrite !bool_decide_false by (intros H; injection H; vm_compute bytes_of; intros; lia).
    cbn [float_digits andb]. rewrite Hd. cbn [andb]. rewrite !(proj2 (Z.eqb_neq _ _)) by done. done.
  Qed.

  Lemma bool_letter s b : inferBool s = Ok b → ∃ c r, no_blanks s = c :: r ∧ (toLower c = 116 ∨ toLower c = 102).
  Proof.
    intros H. unfold inferBool in H.
    assert (∃ x rest, map toLower s = x :: rest ∧ (x = 116 ∨ x = 102)) as (x & rest & Hm & Hx).
    { case_bool_decide as H1; [|case_bool_decide as H2; [|done]].
      - rewrite H1. eexists _, _. split; [reflexivity|]. by left.
      - rewrite H2. eexists _, _. split; [reflexivity|]. by right. }
    destruct s as [|c s]; [done|]. cbn [map] in Hm. injection Hm as Hc _.
    exists c, (no_blanks s). rewrite Hc. split; [|done].
    unfold no_blanks. rewrite filter_cons_True; [done|].
    assert (c = x ∨ c + 32 = x) as Hcx.
    { unfold toLower in Hc. destruct ((65 <=? c) && (c <=? 90)); lia. }
    lia.
  Qed.

  Lemma first_type_number s t :
    numeric R s → first_type fa checks s t → t = DT_DATE_SHORT ∨ is_num t = true.
  Proof.
    intros Hn%numeric_float (pre & post & Hall & Hok & Hpre).
    assert (∃ u, isAnyFloat u = true ∧ ok_of (R u s) = true) as (u & Hu & Hru).
    { destruct Hn as [[c Hc]|[[c Hc]|[c Hc]]]; eexists; (split; [|by rewrite Hc]); done. }
    assert (t ≠ DT_NONE) as Hnone.
    { intros ->. cbn [read] in Hok. unfold inferNone in Hok.
      destruct (bool_decide _) eqn:Hb; [|done]. exfalso. apply bool_decide_eq_true in Hb.
      destruct u; try done; clear -Hb Hru;
        repeat (apply elem_of_cons in Hb as [->|Hb]; [vm_compute in Hru; discriminate Hru|]);
        by apply elem_of_nil in Hb. }
    assert (t ≠ DT_BOOL) as Hbool.
    { intros ->. cbn [read] in Hok. destruct (inferBool s) as [b|] eqn:Hb; [|done].
      apply bool_letter in Hb as (c & r & Hs & Hc).
      destruct u; try done; cbn [read] in Hru; by erewrite letter_not_float in Hru. }
    assert (u ∉ pre) as Hup.
    { intros Hin. apply Hpre in Hin. congruence. }
    apply types_before in Hall. subst pre.
    destruct t; try done; try (by left); try (by right); exfalso; apply Hup; apply (bool_decide_unpack _);
      by destruct u.
  Qed.

  Lemma read_by_all (r : nrank) s : read_by (λ t, R t s) r = read_by (only (λ _, true) (λ t, R t s)) r.
  Proof. done. Qed.

  Lemma string_readable s : readable R DT_STRING s.
  Proof. by exists (CStr s). Qed.

  Lemma import_ok col :
    let texts := map field_text col in
    col ≠ [] → (∀ s, s ∈ texts → plain R s) → some_type_unused R texts → short_apart R texts →
    longest_untyped R texts →
    ∃ p cs, import_page fa checks col = Ok (p, cs) ∧ page_of_readings R col p cs.
  Proof.
    intros texts Hne Hplain [t0 Ht0] Hshort Hlong.
    set (b := ∀ s, s ∈ texts → numeric R s ∧ (short R s → whole R s)) in *.
    set (c := ∀ s, s ∈ texts → numeric R s → short R s) in *.
    set (a := ∀ s, s ∈ texts → ¬ short R s) in *.
    set (allt := ∀ s, s ∈ texts → typed R s) in *.
    assert (∀ f, f ∈ col → field_text f ∈ texts) as Htext.
    { intros f Hf. apply elem_of_list_fmap. by exists f. }
    destruct (collect_ok fa checks
                (λ t, (allt → t ≠ DT_STRING) ∧ (b → t = DT_DATE_SHORT ∨ is_num t = true) ∧ (c → is_num t = false))
                col [] newRank 1) as (dts & longest & r & Hcollect & Hinv & Hlongest & HF).
    - apply newRank_inv.
    - intros f Hf u x _ Hx. eapply Hplain; [|exact Hx]. by apply Htext.
    - intros f t Hf Hfirst. split_and!.
      + intros Hall ->. destruct (Hall _ (Htext f Hf)) as (u & Hu & cu & Hcu).
        destruct Hfirst as (pre & post & Hsplit & _ & Hpre). apply types_before in Hsplit. subst pre.
        assert (u ∈ upto DT_STRING all_ntypes) as Hin by (apply (bool_decide_unpack _); by destruct u).
        apply Hpre in Hin. by rewrite Hcu in Hin.
      + intros Hb. eapply first_type_number; [|done]. apply Hb. by apply Htext.
      + intros Hc. destruct Hfirst as (pre & post & Hsplit & Hok & Hpre).
        destruct (is_num t) eqn:E; [|done]. exfalso.
        assert (readable R t (field_text f)) as Hr.
        { destruct (R t (field_text f)) as [x|] eqn:Ex; [|done]. by exists x. }
        destruct (Hc _ (Htext f Hf) (readable_num _ _ E Hr)) as [x Hx].
        apply types_before in Hsplit. subst pre.
        assert (DT_DATE_SHORT ∈ upto t all_ntypes) as Hin by (apply (bool_decide_unpack _); by destruct t).
        apply Hpre in Hin. by rewrite Hx in Hin.
    - intros t Ht. by apply elem_of_nil in Ht.
    - cbn [app] in Hinv.
      assert (∀ f, f ∈ col → ∃ dt, dt ∈ dts ∧ readable R dt (field_text f) ∧
                (dt = DT_STRING → runeLen (field_text f) <= longest)) as Hdt.
      { intros f [i Hi]%elem_of_list_lookup. destruct (Forall2_lookup_l _ _ _ _ _ HF Hi) as (dt & Hd & _ & H1 & H2).
        exists dt. split; [|done]. by eapply elem_of_list_lookup_2. }
      assert (∀ dt, dt ∈ dts → (allt → dt ≠ DT_STRING) ∧ (b → dt = DT_DATE_SHORT ∨ is_num dt = true) ∧
                (c → is_num dt = false) ∧ ∃ f, f ∈ col ∧ readable R dt (field_text f)) as Hdts.
      { intros dt [i Hi]%elem_of_list_lookup.
        destruct (Forall2_lookup_r _ _ _ _ _ HF Hi) as (f & Hf & (H1 & H2 & H3) & H4 & _).
        split_and!; try done. exists f. split; [|done]. by eapply elem_of_list_lookup_2. }
      destruct (header_ok dts r Hinv) as (t1 & ts & r' & Hts & Hheader & _ & _ & Hperm & _).
      { intros ->. inversion HF. subst col. done. }
      { exists t0. intros Hin. apply Hdts in Hin as (_ & _ & _ & f & Hf & Hr). by eapply Ht0; [apply Htext|]. }
      assert (r'.*1 ≡ₚ all_ntypes) as Hall.
      { pose proof Hinv as [(Hp & _ & _) _]. rewrite (fmap_Permutation fst _ _ Hperm). done. }
      unfold import_page. rewrite Hcollect. cbn [res_bind]. rewrite Hheader. cbn [res_bind].
      exists (page_kind t1 ts).
      destruct (dumpPageBody_ok (page_kind t1 ts) longest r' col
                  (λ f x, (∃ t, R t (field_text f) = Ok x) ∧ page_cell (page_kind t1 ts) x)) as (cs & Hcs & HQ).
      2:{ exists cs. rewrite Hcs. split; [done|exact HQ]. }
      intros f Hf. destruct (page_kind t1 ts) eqn:Ek.
      + (* texts *)
        apply page_kind_unicode in Ek. subst t1.
        assert (DT_STRING ∈ dts) as Hstr by (apply Hts; left).
        exists (CStr (field_text f)).
        assert (runeLen (field_text f) <= longest) as Hlen.
        { destruct Hlong as [Hl|(s & Hs & Hu & Hmax)].
          { apply Hdts in Hstr as (Hs & _). by destruct (Hs Hl). }
          apply elem_of_list_fmap in Hs as (g & -> & Hg). destruct (Hdt g Hg) as (dt & _ & Hr & Hlen).
          destruct (decide (dt = DT_STRING)) as [E|E].
          - pose proof (Hmax _ (Htext f Hf)). apply Hlen in E. lia.
          - exfalso. apply Hu. by exists dt. }
        split_and!.
        * unfold dump_field. assert (padded_text longest (field_text f) = Ok (CStr (field_text f))) as Hp.
          { unfold padded_text. rewrite (proj2 (Z.ltb_ge _ _)) by lia. done. }
          by destruct f.
        * by exists DT_STRING.
        * by eexists.
      + (* whole numbers *)
        apply page_kind_int in Ek as [Hn1 Ek].
        assert (whole R (field_text f)) as Hw.
        { destruct (Hdt f Hf) as (dt & Hin & Hr & _). destruct Hshort as [Ha|[Hb|Hc]].
          - apply (readable_int dt); [|done]. apply (proj1 (seen_apart t1 ts ltac:(
              intros Hs; apply Hts in Hs; apply Hdts in Hs as (_ & _ & _ & g & Hg & Hrg); exact (Ha _ (Htext g Hg) Hrg)))); [done|].
            by apply Hts.
          - destruct (seen_numbers t1 ts) with dt as [->|Hi].
            + intros t Ht. apply Hts, Hdts in Ht as (_ & Ht & _). by apply Ht.
            + done.
            + by apply Hts.
            + apply Hb; [by apply Htext|done].
            + by apply (readable_int dt).
          - exfalso. destruct (seen_no_numbers t1 ts) as [H _]; [|done].
            intros t Ht. apply Hts, Hdts in Ht as (_ & _ & Ht & _). by apply Ht. }
        destruct f as [s|]; [|exfalso; by eapply whole_not_empty].
        cbn [dump_field field_text default] in *.
        destruct (read_by_ok isAnyInt r' s) as (t & x & Hx & Hti & HR).
        * done.
        * intros u x _. eapply Hplain. by apply (Htext (Some s)).
        * destruct Hw as [H|[H|H]]; eexists; (split; [|exact H]); done.
        * exists x. split_and!; [done|by exists t|]. by eapply read_int.
      + (* floats *)
        apply page_kind_float in Ek as [Hn1 Ek].
        assert (numeric R (field_text f)) as Hw.
        { destruct (Hdt f Hf) as (dt & Hin & Hr & _). destruct Hshort as [Ha|[Hb|Hc]].
          - apply (readable_num dt); [|done]. apply (proj2 (seen_apart t1 ts ltac:(
              intros Hs; apply Hts in Hs; apply Hdts in Hs as (_ & _ & _ & g & Hg & Hrg); exact (Ha _ (Htext g Hg) Hrg)))); [done|].
            by apply Hts.
          - apply Hb. by apply Htext.
          - exfalso. destruct (seen_no_numbers t1 ts) as [_ H]; [|done].
            intros t Ht. apply Hts, Hdts in Ht as (_ & _ & Ht & _). by apply Ht. }
        destruct f as [s|]; [|exfalso; by eapply numeric_not_empty].
        cbn [dump_field field_text default] in *.
        destruct (read_by_ok isAnyFloat r' s) as (t & x & Hx & Hti & HR).
        * done.
        * intros u x _. eapply Hplain. by apply (Htext (Some s)).
        * apply numeric_float in Hw as [H|[H|H]]; eexists; (split; [|exact H]); done.
        * exists x. split_and!; [done|by exists t|]. by eapply read_float.
      + destruct f as [s|]; cbn [dump_field field_text default] in *.
        2:{ exists CNone. split_and!; [done|by exists DT_NONE|done]. }
        destruct (read_by_ok (λ _, true) r' s) as (t & x & Hx & _ & HR).
        * done.
        * intros u x _. eapply Hplain. by apply (Htext (Some s)).
        * exists DT_STRING. split; [done|apply string_readable].
        * exists x. rewrite read_by_all. split_and!; [done|by exists t|done].
      + unfold page_kind in Ek. by destruct (if bool_decide _ then _ else _).
      + unfold page_kind in Ek. by destruct (if bool_decide _ then _ else _).
      + unfold page_kind in Ek. by destruct (if bool_decide _ then _ else _).
  Qed.
End Floats.
