(** Rows split page by page; dictionaries of columns. *)
From Verif.Spec Require Import Base Select.
From Verif.Model Require Import Dict ColumnSelect.
From Verif.Proof Require Import DictLemmas.

Lemma omap_ext_in {B C} (f g : B → option C) (l : list B) : (∀ x, x ∈ l → f x = g x) → omap f l = omap g l.
Proof. intros H. apply list_omap_ext. apply Forall_Forall2_diag, list.Forall_forall. done. Qed.
Lemma filter_ext_elem {B} (P Q : B → Prop) `{∀ x, Decision (P x), ∀ x, Decision (Q x)} (l : list B) :
  (∀ x, x ∈ l → P x ↔ Q x) → filter P l = filter Q l.
Proof.
  induction l as [|x l IH]; intros Hl; [done|]. rewrite !filter_cons.
  rewrite (IH ltac:(intros y Hy; apply Hl; by right)).
  pose proof (Hl x ltac:(by left)). repeat case_decide; tauto.
Qed.
Lemma omap_fmap {B C D} (f : C → option D) (g : B → C) (l : list B) : omap f (g <$> l) = omap (f ∘ g) l.
Proof. induction l as [|x l IH]; [done|]. cbn. rewrite IH. destruct (f (g x)); done. Qed.
Lemma omap_lookup_all {B} (l : list B) : omap (λ i, l !! i) (seq 0 (length l)) = l.
Proof.
  induction l as [|x l IH]; [done|]. cbn [length seq]. cbn. f_equal.
  rewrite <- fmap_S_seq, omap_fmap. rewrite <- IH at 2. apply omap_ext_in. done.
Qed.
Lemma list_filter_all {B} (P : B → Prop) `{∀ x, Decision (P x)} (l : list B) : Forall P l → filter P l = l.
Proof. induction 1 as [|x l Hx _ IH]; [done|]. rewrite filter_cons, decide_True by done. by f_equal. Qed.
Lemma filter_fmap_in {B C} (P : C → Prop) `{∀ x, Decision (P x)} (f : B → C) (l : list B) :
  filter P (f <$> l) = f <$> filter (λ x, P (f x)) l.
Proof. induction l as [|x l IH]; [done|]. rewrite fmap_cons, !filter_cons, IH. destruct (decide (P (f x))); done. Qed.
Lemma filter_seq_full (P : nat → Prop) `{∀ x, Decision (P x)} n :
  length (filter P (seq 0 n)) = n → filter P (seq 0 n) = seq 0 n.
Proof.
  intros Hl. apply list_filter_all. apply list.Forall_forall. intros x Hx.
  destruct (decide (P x)) as [|Hn]; [done|]. pose proof (filter_length_lt P _ x Hx Hn) as Hlt.
  rewrite Hl, seq_length in Hlt. lia.
Qed.

Section rows.
  Context {A K R D : Type} `{EqDecision A, EqDecision K} (none estr : A) (kstr : K).
  Context (conv : K → A → option A) (wish_of : D → wish (K := K)) (no_text no_none : D → R) (no_value : D → A → R).
  Context (ds : list D).
  Notation cw vs := (cell_wanted none estr kstr conv wish_of no_text no_none no_value vs).
  Notation rr vs := (row_reason none estr kstr conv wish_of no_text no_none no_value ds vs).
  Notation pv vs := (passed_values none estr kstr conv wish_of no_text no_none no_value ds vs).
  Notation pa vs := (passing none estr kstr conv wish_of no_text no_none no_value ds vs).
  Notation fa vs := (failing none estr kstr conv wish_of no_text no_none no_value ds vs).
  Notation re vs := (reasons none estr kstr conv wish_of no_text no_none no_value ds vs).
  Notation fv vs := (failed_values none estr kstr conv wish_of no_text no_none no_value ds vs).

  Lemma rr_ext (vs vs' : D → list A) i i' : (∀ d, d ∈ ds → vs d !! i = vs' d !! i') → rr vs i = rr vs' i'.
  Proof using.
    intros H. unfold row_reason. f_equal. apply omap_ext_in. intros d Hd. unfold cell_wanted. rewrite (H d Hd). done.
  Qed.

  Context (vs vs1 vs2 : D → list A) (n1 n2 : nat).
  Context (Hvs : ∀ d, d ∈ ds → vs d = vs1 d ++ vs2 d ∧ length (vs1 d) = n1).

  Lemma rr_left i : (i < n1)%nat → rr vs i = rr vs1 i.
  Proof using Hvs. intros Hi. apply rr_ext. intros d Hd. destruct (Hvs d Hd) as [-> Hl]. apply lookup_app_l. lia. Qed.
  Lemma rr_right i : rr vs (n1 + i) = rr vs2 i.
  Proof using Hvs.
    apply rr_ext. intros d Hd. destruct (Hvs d Hd) as [-> Hl]. rewrite lookup_app_r by lia. f_equal. lia.
  Qed.
  Lemma seq_shift : seq n1 n2 = (λ i, n1 + i)%nat <$> seq 0 n2.
  Proof using.
    clear. rewrite fmap_add_seq. f_equal. lia.
  Qed.
  Lemma passing_app : pa vs (n1 + n2) = pa vs1 n1 ++ ((λ i, n1 + i)%nat <$> pa vs2 n2).
  Proof using Hvs.
    unfold passing. rewrite seq_app, list.filter_app. f_equal.
    - apply filter_ext_elem. intros i Hi. apply elem_of_seq in Hi. rewrite rr_left by lia. done.
    - rewrite Nat.add_0_l, seq_shift. rewrite filter_fmap_in. f_equal. apply filter_ext_elem. intros i Hi. cbn. rewrite rr_right. done.
  Qed.
  Lemma failing_app : fa vs (n1 + n2) = fa vs1 n1 ++ ((λ i, n1 + i)%nat <$> fa vs2 n2).
  Proof using Hvs.
    unfold failing. rewrite seq_app, list.filter_app. f_equal.
    - apply filter_ext_elem. intros i Hi. apply elem_of_seq in Hi. rewrite rr_left by lia. done.
    - rewrite Nat.add_0_l, seq_shift. rewrite filter_fmap_in. f_equal. apply filter_ext_elem. intros i Hi. cbn. rewrite rr_right. done.
  Qed.
  Lemma passing_lt (w : D → list A) n i : i ∈ pa w n → (i < n)%nat ∧ rr w i = None.
  Proof using. unfold passing. intros [H1 H2]%elem_of_list_filter. apply elem_of_seq in H2. split; [lia|done]. Qed.
  Lemma failing_lt (w : D → list A) n i : i ∈ fa w n → (i < n)%nat ∧ rr w i ≠ None.
  Proof using. unfold failing. intros [H1 H2]%elem_of_list_filter. apply elem_of_seq in H2. split; [lia|done]. Qed.
  Lemma passed_app d : d ∈ ds → pv vs (n1 + n2) d = pv vs1 n1 d ++ pv vs2 n2 d.
  Proof using Hvs.
    intros Hd. destruct (Hvs d Hd) as [Heq Hl]. unfold passed_values. rewrite passing_app, omap_app. f_equal.
    - apply omap_ext_in. intros i Hi. apply passing_lt in Hi as [Hi _]. unfold cell_wanted. rewrite Heq, lookup_app_l by lia. done.
    - rewrite omap_fmap. apply omap_ext_in. intros i _. unfold compose, cell_wanted. rewrite Heq, lookup_app_r by lia.
      replace (n1 + i - length (vs1 d))%nat with i by lia. done.
  Qed.
  Lemma reasons_app : re vs (n1 + n2) = re vs1 n1 ++ re vs2 n2.
  Proof using Hvs.
    unfold reasons. rewrite failing_app, omap_app. f_equal.
    - apply omap_ext_in. intros i Hi. apply failing_lt in Hi as [Hi _]. apply rr_left. done.
    - rewrite omap_fmap. apply omap_ext_in. intros i _. apply rr_right.
  Qed.
  Lemma failed_app xs1 xs2 : length xs1 = n1 → fv vs (n1 + n2) (xs1 ++ xs2) = fv vs1 n1 xs1 ++ fv vs2 n2 xs2.
  Proof using Hvs.
    intros Hl. unfold failed_values. rewrite failing_app, omap_app. f_equal.
    - apply omap_ext_in. intros i Hi. apply failing_lt in Hi as [Hi _]. apply lookup_app_l. lia.
    - rewrite omap_fmap. apply omap_ext_in. intros i _. unfold compose. rewrite lookup_app_r by lia. f_equal. lia.
  Qed.
End rows.

Section dicts.
  Context {B : Type}.
  Implicit Types (t cols : list (string * list B)).

  Lemma dict_map t : NoDup t.*1 → t = (λ k, (k, dget_or t k [])) <$> t.*1.
  Proof.
    intros Hnd. rewrite <- list_fmap_compose. rewrite <- (list_fmap_id t) at 1. apply list_fmap_ext.
    intros i [k v] Hi. cbn. unfold dget_or. rewrite (proj2 (dget_Some t k v Hnd)); [done|]. by eapply elem_of_list_lookup_2.
  Qed.

  Lemma dset_existing t k v : NoDup t.*1 → k ∈ t.*1 →
    dset t k v = (λ p : string * list B, if decide (p.1 = k) then (p.1, v) else p) <$> t.
  Proof.
    induction t as [|[k' v'] t IH]; intros Hnd Hk; [by apply elem_of_nil in Hk|].
    rewrite fmap_cons in Hnd, Hk. cbn [fst] in Hnd, Hk. apply list.NoDup_cons in Hnd as [Hk' Hnd].
    cbn [dset]. destruct (decide (k = k')) as [->|Hne].
    - rewrite fmap_cons. cbn [fst]. rewrite decide_True by done. f_equal.
      rewrite <- (list_fmap_id t) at 1. apply list_fmap_ext. intros i [k v''] Hi. cbn.
      rewrite decide_False; [done|]. intros ->. apply Hk'. apply elem_of_list_fmap. exists (k', v''). split; [done|].
      by eapply elem_of_list_lookup_2.
    - rewrite fmap_cons. cbn [fst]. rewrite decide_False by congruence. f_equal. apply IH; [done|].
      apply elem_of_cons in Hk as [|]; [done|done].
  Qed.

  Lemma extend_table_spec cols : ∀ t, NoDup t.*1 → NoDup cols.*1 → cols.*1 ⊆ t.*1 →
    extend_table t cols = (λ p : string * list B, (p.1, p.2 ++ dget_or cols p.1 [])) <$> t.
  Proof.
    induction cols as [|[k x] cols IH]; intros t Hnd Hc Hsub.
    { cbn. rewrite <- (list_fmap_id t) at 1. apply list_fmap_ext. intros i [k v] _. cbn. by rewrite app_nil_r. }
    rewrite fmap_cons in Hc, Hsub. cbn [fst] in Hc, Hsub. apply list.NoDup_cons in Hc as [Hk Hc].
    unfold extend_table. cbn [fold_left fst snd]. change (fold_left _ cols ?u) with (extend_table u cols).
    assert (Hkt : k ∈ t.*1) by (apply Hsub; left).
    rewrite dset_existing by done.
    assert (Hkeys : ((λ p : string * list B, if decide (p.1 = k) then (p.1, dget_or t k [] ++ x) else p) <$> t).*1 = t.*1).
    { rewrite <- list_fmap_compose. apply list_fmap_ext. intros i [k' v'] _. cbn. destruct (decide (k' = k)); done. }
    rewrite IH; [|by rewrite Hkeys|done|rewrite Hkeys; intros y Hy; apply Hsub; by right].
    rewrite <- list_fmap_compose. apply list_fmap_ext. intros i [k' v'] Hi. cbn [compose fst snd].
    unfold compose. cbn [fst snd].
    assert (Hg : dget t k' = Some v').
    { apply dget_Some; [done|]. by eapply elem_of_list_lookup_2. }
    destruct (decide (k' = k)) as [->|Hne]; cbn [fst snd].
    - unfold dget_or. rewrite Hg. cbn [dget]. rewrite decide_True by done. rewrite (proj2 (dget_None cols k) Hk). cbn. by rewrite app_nil_r.
    - unfold dget_or. cbn [dget]. rewrite decide_False by done. done.
  Qed.
End dicts.
