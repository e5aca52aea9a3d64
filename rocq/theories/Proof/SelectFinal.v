(** Names of the selected columns; the theorems on [column_select]. *)
From stdpp Require Import strings pretty.
From Coq Require Import Ascii Sorted.
From Verif.Spec Require Import Select.
From Verif.Model Require Import ColumnSelect.
From Verif.Proof Require Import DictLemmas NamesProofs PageLifeProofs SelectMask SelectPage SelectLemmas SelectTable.

(** ** names *)
Definition count (n : string) (l : list string) : nat := length (filter (λ m, m = n) l).
Lemma count_snoc n l m : count n (l ++ [m]) = (count n l + if decide (m = n) then 1 else 0)%nat.
Proof. unfold count. rewrite list.filter_app, app_length. f_equal. rewrite filter_cons, filter_nil. destruct (decide (m = n)); done. Qed.

Section names.
  Context {K : Type} (knone : K).
  Notation as_desired := (as_desired knone).

  Lemma add_desired_fold cols : ∀ seen (m : list (string * desired)) cs,
    (∀ n, dget cs n = if (count n seen =? 0)%nat then None else Some (N.of_nat (count n seen))) →
    NoDup (m.*1 ++ told_apart seen (map given cols)) →
    (fold_left (add_desired knone) cols (m, cs)).1 =
      m ++ zip_with (λ n c, (n, as_desired n c)) (told_apart seen (map given cols)) cols.
  Proof.
    induction cols as [|c cols IH]; intros seen m cs Hcs Hnd.
    { cbn. by rewrite app_nil_r. }
    cbn [map told_apart] in *. change (length (filter (λ m, m = given c) seen)) with (count (given c) seen) in *.
    cbn [fold_left zip_with].
    set (n := if (count (given c) seen =? 0)%nat then given c else _) in *.
    assert (Hstep : add_desired knone (m, cs) c = (m ++ [(n, as_desired n c)], dset cs (given c) (N.of_nat (S (count (given c) seen))))).
    { unfold add_desired. cbn [fst snd]. fold (given c). rewrite Hcs.
      assert (Hfresh : ∀ v, dset m n v = m ++ [(n, v)]).
      { intros v. apply list.NoDup_app in Hnd as (_ & Hnd & _).
        assert (Hn : n ∉ m.*1) by (intros Hin; apply (Hnd _ Hin); left). clear -Hn.
        induction m as [|[k x] m IH]; [done|]. rewrite fmap_cons in Hn. cbn [fst] in Hn. apply not_elem_of_cons in Hn as [Hk Hn].
        cbn [dset]. rewrite decide_False by done. cbn [app]. f_equal. by apply IH. }
      subst n. destruct (count (given c) seen =? 0)%nat eqn:E.
      - apply Nat.eqb_eq in E. rewrite E in *. rewrite Hfresh. done.
      - rewrite Hfresh. unfold as_desired, numbered. f_equal. f_equal. lia. }
    rewrite Hstep. rewrite (IH (seen ++ [given c])).
    - rewrite <- app_assoc. done.
    - intros n'. rewrite dget_dset, count_snoc, Hcs. destruct (decide (n' = given c)) as [->|Hne].
      + rewrite decide_True by done. rewrite (proj2 (Nat.eqb_neq _ 0)) by lia. f_equal. lia.
      + rewrite decide_False by congruence. rewrite Nat.add_0_r. done.
    - rewrite fmap_app, <- app_assoc. done.
  Qed.

  Theorem desired_columns_spec cols : NoDup (told_apart [] (map given cols)) →
    desired_columns knone cols = zip_with as_desired (told_apart [] (map given cols)) cols.
  Proof.
    intros Hnd. unfold desired_columns. rewrite (add_desired_fold cols []); [|done|done].
    rewrite app_nil_l. generalize (told_apart [] (map given cols)). intros ns. revert cols Hnd.
    assert (H : ∀ cols, (zip_with (λ n c, (n, as_desired n c)) ns cols).*2 = zip_with as_desired ns cols).
    { induction ns as [|n ns IH]; intros [|c cols]; [done..|]. cbn. f_equal. apply IH. }
    intros cols _. apply H.
  Qed.

  Lemma told_apart_length seen l : length (told_apart seen l) = length l.
  Proof. revert seen. induction l as [|n l IH]; intros seen; [done|]. cbn. by rewrite IH. Qed.
  Lemma desired_names cols : d_name <$> zip_with as_desired (told_apart [] (map given cols)) cols = told_apart [] (map given cols).
  Proof.
    assert (Hl : length (told_apart [] (map given cols)) = length cols) by (rewrite told_apart_length; apply map_length).
    revert Hl. generalize (told_apart [] (map given cols)). intros ns. revert cols.
    induction ns as [|n ns IH]; intros [|c cols] Hl; [done..|]. cbn. f_equal. apply IH. cbn in Hl. lia.
  Qed.
End names.

Definition underscore : ascii := "_"%char.
Lemma pretty_no_underscore (n : N) : underscore ∉ chars (pretty n).
Proof.
  unfold pretty, pretty_N. case_decide.
  - cbn. set_solver.
  - assert (Hgo : ∀ s, underscore ∉ chars s → underscore ∉ chars (pretty_N_go n s)).
    { clear. induction (N.lt_wf_0 n) as [x _ IH]; intros s Hs.
      assert (x = 0 ∨ 0 < x)%N as [->|Hx] by lia; [by rewrite pretty_N_go_0|].
      rewrite pretty_N_go_step by done. apply IH; [by apply N.div_lt|]. cbn [list_ascii_of_string].
      rewrite not_elem_of_cons. split; [|done]. unfold pretty_N_char, underscore. repeat case_match; done. }
    apply Hgo. cbn. apply not_elem_of_nil.
Qed.
Lemma numbered_split n m (j k : N) : (n +:+ "_" +:+ pretty j)%string = (m +:+ "_" +:+ pretty k)%string → n = m ∧ j = k.
Proof.
  intros H. apply (f_equal chars) in H. rewrite !chars_app in H. change (chars "_") with [underscore] in H. cbn [app] in H.
  apply (f_equal reverse) in H. rewrite !reverse_app, !reverse_cons, <- !app_assoc in H. cbn [app] in H.
  apply mark_split in H as [H1 H2]; [|rewrite elem_of_reverse; apply pretty_no_underscore..].
  apply (inj reverse) in H1, H2. apply chars_inj in H1, H2. by apply (inj pretty) in H1.
Qed.

(** names which are not numbered names of one another get different names *)
Lemma told_apart_in seen l x : x ∈ told_apart seen l → ∃ n, n ∈ l ∧
  (x = n ∧ n ∉ seen ∨ ∃ k, (count n seen ≤ k)%nat ∧ (0 < k)%nat ∧ x = (n +:+ "_" +:+ pretty (N.of_nat k))%string).
Proof.
  revert seen. induction l as [|n l IH]; intros seen Hx; [by apply elem_of_nil in Hx|]. cbn [told_apart] in Hx.
  change (length (filter (λ m, m = n) seen)) with (count n seen) in Hx.
  apply elem_of_cons in Hx as [->|Hx].
  - exists n. split; [left|]. destruct (count n seen =? 0)%nat eqn:E.
    + left. split; [done|]. apply Nat.eqb_eq in E. intros Hin. unfold count in E. apply nil_length_inv in E.
      assert (H : n ∈ filter (λ m, m = n) seen) by (by apply elem_of_list_filter). rewrite E in H. by apply elem_of_nil in H.
    + right. apply Nat.eqb_neq in E. exists (count n seen). split_and!; [lia|lia|done].
  - destruct (IH _ Hx) as (n' & Hn' & [[-> Hs]|(k & Hk & Hk0 & ->)]).
    + exists n'. split; [by right|]. left. split; [done|]. intros Hin. apply Hs. apply elem_of_app. by left.
    + exists n'. split; [by right|]. right. exists k. rewrite count_snoc in Hk. split_and!; [lia|lia|done].
Qed.
Lemma told_apart_NoDup seen l : (∀ n m k, n ∈ l → m ∈ l → n ≠ (m +:+ "_" +:+ pretty (N.of_nat k))%string) → NoDup (told_apart seen l).
Proof.
  revert seen. induction l as [|n l IH]; intros seen Hl; [constructor|]. cbn [told_apart].
  change (length (filter (λ m, m = n) seen)) with (count n seen). apply list.NoDup_cons. split.
  - intros Hx. apply told_apart_in in Hx as (n' & Hn' & H).
    destruct (count n seen =? 0)%nat eqn:E.
    + destruct H as [[<- Hs]|(k & _ & _ & Heq)].
      * apply Hs. apply elem_of_app. right. left.
      * by apply (Hl n n' k) in Heq; [|left|right].
    + destruct H as [[Heq _]|(k & Hk & _ & Heq)].
      * symmetry in Heq. by apply (Hl n' n (count n seen)) in Heq; [|right|left].
      * apply numbered_split in Heq as [<- Heq]. rewrite count_snoc, decide_True in Hk by done. lia.
  - apply IH. intros a b k Ha Hb. apply Hl; by right.
Qed.
Lemma told_apart_distinct l : NoDup l → told_apart [] l = l.
Proof.
  intros Hnd. assert (H : ∀ seen, (∀ n, n ∈ l → n ∉ seen) → told_apart seen l = l).
  { induction Hnd as [|n l Hn Hnd IH]; intros seen Hs; [done|]. cbn [told_apart].
    assert (E : filter (λ m, m = n) seen = []).
    { destruct (filter (λ m, m = n) seen) as [|y ys] eqn:E; [done|]. assert (Hy : y ∈ filter (λ m, m = n) seen) by (rewrite E; left).
      apply elem_of_list_filter in Hy as [-> Hy]. exfalso. apply (Hs n); [left|done]. }
    rewrite E. cbn. f_equal. apply IH. intros m Hm [Hin| ->%elem_of_list_singleton]%elem_of_app; [|done].
    apply (Hs m); [by right|done]. }
  apply H. intros n _. apply not_elem_of_nil.
Qed.

(** ** the theorems *)
Section final.
  Context {A K : Type} `{EqDecision A, EqDecision K} (kind : A → K) (knone kstr : K) (none estr : A).
  Context (conv : K → A → res A) (no_text no_none : desired (K := K) → A) (no_value : desired (K := K) → A → A) (ps step : nat).
  Notation page := (page (A := A) (K := K)).
  Notation desired := (desired (K := K)).
  Notation cw vs := (cell_wanted none estr kstr (λ k v, ok_of (conv k v)) wish_of no_text no_none no_value vs).
  Notation rr ds vs := (row_reason none estr kstr (λ k v, ok_of (conv k v)) wish_of no_text no_none no_value ds vs).
  Notation pv ds vs := (passed_values none estr kstr (λ k v, ok_of (conv k v)) wish_of no_text no_none no_value ds vs).
  Notation pa ds vs := (passing none estr kstr (λ k v, ok_of (conv k v)) wish_of no_text no_none no_value ds vs).
  Notation fa ds vs := (failing none estr kstr (λ k v, ok_of (conv k v)) wish_of no_text no_none no_value ds vs).
  Notation re ds vs := (reasons none estr kstr (λ k v, ok_of (conv k v)) wish_of no_text no_none no_value ds vs).
  Notation fv ds vs := (failed_values none estr kstr (λ k v, ok_of (conv k v)) wish_of no_text no_none no_value ds vs).

  Notation conv_ok := (conv_ok kind knone kstr none estr conv).
  Notation table_ok := (table_ok kind knone ps).
  Notation wishes_ok := (wishes_ok kind knone kstr conv).
  Notation all_seen := (all_seen kind knone kstr).

  Theorem select_spec t cols lens :
    let ds := zip_with (as_desired knone) (told_apart [] (map given cols)) cols in
    let n := sum_list lens in
    conv_ok → (0 < ps)%nat → (0 < step)%nat → NoDup (told_apart [] (map given cols)) →
    table_ok t lens → wishes_ok t ds → all_seen t ds lens →
    ∃ reject, unique_name "reject_reason" t.*1 = Some reject ∧ reject ∉ t.*1 ∧
      column_select kind knone kstr none estr conv no_text no_none no_value ps step t cols =
        Ok (map (λ d, (d_name d, pv ds (vals t) n d)) ds,
            (reject, re ds (vals t) n) :: map (λ c, (c.1, fv ds (vals t) n (concat (map pg_vals c.2)))) t).
  Proof using.
    cbv zeta. intros (Hkn & Hks & Hns & Hid) Hps Hstep Hnames (Hnd & Hne & Hfit & Hok) Hds Hact.
    apply (column_select_spec kind knone kstr none estr conv no_text no_none no_value Hkn Hks Hns Hid ps step Hps Hstep
      t _ lens Hnd Hne Hok Hfit); [|done|done|by apply desired_columns_spec].
    rewrite desired_names. done.
  Qed.

  (** with one page per column nothing is overlooked *)
  Theorem one_page_seen t ds L : table_ok t [L] → (∀ d, d ∈ ds → d_orig d ∈ t.*1) → ds ≠ [] → all_seen t ds [L].
  Proof using.
    intros (Hnd & Hne & Hfit & Hok) Ho Hds i L' Hi.
    destruct i as [|i]; [|done]. cbn in Hi. inversion Hi; subst L'.
    destruct ds as [|d ds]; [done|]. right. exists d. split; [left|].
    assert (Hin : (d_orig d, col t d) ∈ t).
    { unfold col. destruct (dget t (d_orig d)) as [c|] eqn:E; [by apply dget_in in E|]. apply dget_None in E. destruct E. apply Ho. left. }
    destruct (Hok _ Hin) as [Hpo Hl]. cbn [snd] in Hpo, Hl.
    destruct (col t d) as [|p [|p' c]] eqn:Ec; [done| |done]. unfold page_at. cbn [lookup list_lookup default].
    destruct (as_is kstr d p) eqn:Ea; [|by right]. left. unfold as_is in Ea.
    apply list.Forall_cons in Hpo as [Hp _]. unfold ColumnSelect.page_ok in Hp.
    destruct (pg_kind p) as [k|] eqn:Ek; [|done]. destruct Hp as [Hk _]. apply andb_true_iff in Ea as [H1 H2].
    apply bool_decide_eq_true in H1. unfold needs_to_iterate, column_types, page_types. cbn [map concat]. rewrite Ek. cbn [app].
    assert (Hr : remove_dups [k] = [k]) by (cbn; done). rewrite Hr.
    rewrite decide_False by (rewrite elem_of_list_singleton; congruence).
    rewrite decide_False by (intros Hx; by apply Hx).
    destruct (bool_decide (k = kstr)) eqn:Eb; [|done]. cbn [negb orb] in H2. rewrite H2. done.
  Qed.

  (** ** the rows are divided *)
  Lemma rows_divided (ds : list desired) (vs : desired → list A) n : pa ds vs n ++ fa ds vs n ≡ₚ seq 0 n.
  Proof using.
    unfold passing, failing. generalize (seq 0 n). intros l. induction l as [|i l IH]; [done|]. rewrite !filter_cons.
    destruct (decide (rr ds vs i = None)) as [Hr|Hr].
    - rewrite decide_False by (intros Hn; exact (Hn Hr)). cbn [app]. by rewrite IH.
    - rewrite decide_True by done. rewrite <- Permutation_middle, IH. done.
  Qed.
  Lemma passed_length (ds : list desired) (vs : desired → list A) n d :
    d ∈ ds → length (vs d) = n → Forall2 (λ i x, cw vs i d = Some (inl x)) (pa ds vs n) (pv ds vs n d).
  Proof using.
    intros Hd Hl. unfold passed_values.
    assert (H : ∀ i, i ∈ pa ds vs n → ∃ x, cw vs i d = Some (inl x)).
    { intros i [Hi Hr]%passing_lt. unfold cell_wanted. destruct (lookup_lt_is_Some_2 (vs d) i ltac:(lia)) as [v Hv].
      assert (Hc : cw vs i d = Some (wanted none estr kstr (λ k v, ok_of (conv k v)) wish_of no_text no_none no_value d v)).
      { unfold cell_wanted. rewrite Hv. done. }
      unfold cell_wanted in Hc. rewrite Hc. destruct (wanted _ _ _ _ _ _ _ _ d v) as [x|q]; [by exists x|]. exfalso.
      unfold row_reason in Hr. rewrite head_None in Hr.
      assert (Hq : q ∈ omap (λ d, match cw vs i d with Some (inr r) => Some r | _ => None end) ds).
      { apply elem_of_list_omap. exists d. split; [done|]. unfold cell_wanted. rewrite Hc. done. }
      rewrite Hr in Hq. by apply elem_of_nil in Hq. }
    induction (pa ds vs n) as [|i l IH]; [constructor|]. destruct (H i ltac:(left)) as [x Hx]. cbn. rewrite Hx.
    constructor; [done|]. apply IH. intros j Hj. apply H. by right.
  Qed.
  Lemma failed_length (ds : list desired) (vs : desired → list A) n xs :
    length xs = n → Forall2 (λ i x, xs !! i = Some x) (fa ds vs n) (fv ds vs n xs).
  Proof using.
    intros Hl. unfold failed_values.
    assert (H : ∀ i, i ∈ fa ds vs n → ∃ x, xs !! i = Some x).
    { intros i [Hi _]%failing_lt. apply lookup_lt_is_Some_2. lia. }
    induction (fa ds vs n) as [|i l IH]; [constructor|]. destruct (H i ltac:(left)) as [x Hx]. cbn. rewrite Hx.
    constructor; [done|]. apply IH. intros j Hj. apply H. by right.
  Qed.
  Lemma reasons_length (ds : list desired) (vs : desired → list A) n :
    Forall2 (λ i r, rr ds vs i = Some r) (fa ds vs n) (re ds vs n).
  Proof using.
    unfold reasons.
    assert (H : ∀ i, i ∈ fa ds vs n → ∃ x, rr ds vs i = Some x).
    { intros i [_ Hi]%failing_lt. destruct (rr ds vs i) as [r|]; [by exists r|done]. }
    induction (fa ds vs n) as [|i l IH]; [constructor|]. destruct (H i ltac:(left)) as [x Hx]. cbn. rewrite Hx.
    constructor; [done|]. apply IH. intros j Hj. apply H. by right.
  Qed.

  Lemma filter_seq_sorted (P : nat → Prop) `{∀ x, Decision (P x)} a n : StronglySorted lt (filter P (seq a n)).
  Proof using.
    revert a. induction n as [|n IH]; intros a; [constructor|]. cbn [seq]. rewrite filter_cons. destruct (decide (P a)); [|apply IH].
    constructor; [apply IH|]. apply list.Forall_forall. intros x [_ Hx]%elem_of_list_filter. apply elem_of_seq in Hx. lia.
  Qed.
  Lemma row_reason_first (ds : list desired) (vs : desired → list A) n i r :
    (∀ d, d ∈ ds → length (vs d) = n) → (i < n)%nat → rr ds vs i = Some r →
    ∃ ds1 d ds2 v, ds = ds1 ++ d :: ds2 ∧ vs d !! i = Some v ∧
      wanted none estr kstr (λ k v, ok_of (conv k v)) wish_of no_text no_none no_value d v = inr r ∧
      ∀ d' v', d' ∈ ds1 → vs d' !! i = Some v' → ∃ x, wanted none estr kstr (λ k v, ok_of (conv k v)) wish_of no_text no_none no_value d' v' = inl x.
  Proof using.
    intros Hl Hi. induction ds as [|d ds IH]; [done|]. unfold row_reason. cbn [omap list_omap].
    destruct (lookup_lt_is_Some_2 (vs d) i) as [v Hv]; [rewrite Hl by left; done|].
    unfold cell_wanted at 1. rewrite Hv. cbn [fmap option_fmap option_map].
    destruct (wanted _ _ _ _ _ _ _ _ d v) as [x|q] eqn:Ew.
    - intros Hr. destruct (IH ltac:(intros d' Hd'; apply Hl; by right) Hr) as (ds1 & d0 & ds2 & v0 & -> & H1 & H2 & H3).
      exists (d :: ds1), d0, ds2, v0. split_and!; [done|done|done|]. intros d' v' [->|Hd']%elem_of_cons Hv'.
      + exists x. congruence.
      + by eapply H3.
    - intros [= <-]. exists [], d, ds, v. split_and!; [done|done|done|]. intros d' v' []%elem_of_nil.
  Qed.
  Theorem divided ds (vs : desired → list A) n xs :
    (∀ d, d ∈ ds → length (vs d) = n) → length xs = n →
    pa ds vs n ++ fa ds vs n ≡ₚ seq 0 n ∧ StronglySorted lt (pa ds vs n) ∧ StronglySorted lt (fa ds vs n) ∧
    (∀ d, d ∈ ds → Forall2 (λ i x, ∃ v, vs d !! i = Some v ∧ wanted none estr kstr (λ k v, ok_of (conv k v)) wish_of no_text no_none no_value d v = inl x)
       (pa ds vs n) (pv ds vs n d)) ∧
    Forall2 (λ i x, xs !! i = Some x) (fa ds vs n) (fv ds vs n xs) ∧
    Forall2 (λ i r, ∃ ds1 d ds2 v, ds = ds1 ++ d :: ds2 ∧ vs d !! i = Some v ∧
        wanted none estr kstr (λ k v, ok_of (conv k v)) wish_of no_text no_none no_value d v = inr r ∧
        ∀ d' v', d' ∈ ds1 → vs d' !! i = Some v' → ∃ x, wanted none estr kstr (λ k v, ok_of (conv k v)) wish_of no_text no_none no_value d' v' = inl x)
      (fa ds vs n) (re ds vs n).
  Proof using.
    intros Hl Hx. split_and!.
    - apply rows_divided.
    - apply filter_seq_sorted.
    - apply filter_seq_sorted.
    - intros d Hd. eapply Forall2_impl; [apply passed_length; [done|by apply Hl]|]. cbv beta. intros i x. unfold cell_wanted.
      destruct (vs d !! i) as [v|]; [|done]. cbn. intros [= H]. by exists v.
    - by apply failed_length.
    - assert (Hlt : Forall (λ i, i < n)%nat (fa ds vs n)).
      { apply list.Forall_forall. intros i Hi. apply failing_lt in Hi as [Hi _]. exact Hi. }
      pose proof (reasons_length ds vs n) as Hr. revert Hlt Hr. generalize (fa ds vs n), (re ds vs n). intros is_ rs Hlt Hr.
      induction Hr as [|i r is_ rs Hir _ IH]; [constructor|]. apply list.Forall_cons in Hlt as [Hi Hlt].
      constructor; [|by apply IH]. by apply (row_reason_first ds vs n).
  Qed.
End final.
