From Verif.Spec Require Import Statistics.
From Verif.Model Require Import Summary.
From Verif.Proof Require Import DictLemmas Binary64Proofs FloatValues.
From Coq Require Import Lqa Qfield ZifyBool Sorted.
From Verif.Proof Require Import StatsProofs.
Local Open Scope Z_scope.

(** ** Quartiles *)
Section Loop.
  Context (k t : Z).
  Definition run (l : list (Q * Z)) (s : iqr_acc) : res iqr_acc :=
    fold_left (λ acc e, res_bind acc (λ s, iqr_step k t s e)) l (Ok s).
  Lemma run_app a b s s' : run a s = Ok s' → run (a ++ b) s = run b s'.
  Proof. intros H. unfold run in *. by rewrite fold_left_app, H. Qed.
  Lemma run_low pre : ∀ s, Forall (λ e, 0 < e.2) pre → 4 * (i_cnt s + total pre) <= k * t →
    run pre s = Ok (IqrAcc (i_cnt s + total pre) (match list.last pre with Some e => Some e.1 | None => i_prev s end) (i_val s)).
  Proof.
    induction pre as [|[v c] pre IH]; intros s Hp Hle.
    - cbn. destruct s. cbn. by rewrite Z.add_0_r.
    - apply list.Forall_cons in Hp as [Hc Hp]. cbn [snd] in Hc. pose proof (total_nonneg _ Hp) as H0.
      unfold total in *. cbn [map fold_right snd] in *. unfold run. cbn [fold_left res_bind]. unfold iqr_step at 2.
      assert ((k * t <? 4 * (i_cnt s + c)) = false) as -> by lia. rewrite andb_false_r.
      assert ((4 * i_cnt s =? k * t) = false) as -> by lia. fold (run pre (IqrAcc (i_cnt s + c) (Some v) (i_val s))).
      rewrite IH by (cbn [i_cnt]; first [done|lia]). cbn [i_cnt i_prev i_val]. f_equal. f_equal; [lia|].
      destruct pre as [|e pre]; [done|]. rewrite last_cons_cons. destruct (list.last (e :: pre)) eqn:E; [done|]. by apply last_None in E.
  Qed.
  Lemma run_high post : ∀ s, Forall (λ e, 0 < e.2) post → k * t < 4 * i_cnt s → ∃ s', run post s = Ok s' ∧ i_val s' = i_val s.
  Proof.
    induction post as [|[v c] post IH]; intros s Hp Hlt; [by exists s|].
    apply list.Forall_cons in Hp as [Hc Hp]. cbn [snd] in Hc. unfold run. cbn [fold_left res_bind]. unfold iqr_step at 2.
    assert ((4 * i_cnt s <? k * t) = false) as -> by lia. cbn [andb]. assert ((4 * i_cnt s =? k * t) = false) as -> by lia.
    fold (run post (IqrAcc (i_cnt s + c) (Some v) (i_val s))). apply (IH (IqrAcc (i_cnt s + c) (Some v) (i_val s))); [done|cbn; lia].
  Qed.
End Loop.

Lemma split_total VC x : ∀ c0, Forall (λ e, 0 < e.2) VC → 4 * c0 <= x < 4 * (c0 + total VC) →
  ∃ pre e post, VC = pre ++ e :: post ∧ 4 * (c0 + total pre) <= x < 4 * (c0 + total pre + e.2).
Proof.
  induction VC as [|e VC IH]; intros c0 Hp Hx; [unfold total in Hx; cbn in Hx; lia|].
  apply list.Forall_cons in Hp as [He Hp]. unfold total in *. cbn [map fold_right] in Hx.
  destruct (decide (x < 4 * (c0 + e.2))).
  - exists [], e, VC. split; [done|]. cbn. lia.
  - destruct (IH (c0 + e.2) Hp) as (pre & e' & post & -> & H); [lia|]. exists (e :: pre), e', post. split; [done|].
    cbn [map fold_right]. lia.
Qed.

Lemma filter_len_perm {A} (f : A → bool) a b : a ≡ₚ b → length (List.filter f a) = length (List.filter f b).
Proof.
  induction 1 as [|x a b H IH|x y l|a b c H1 IH1 H2 IH2]; [done| | |lia]; cbn.
  - destruct (f x); cbn; lia.
  - by destruct (f x), (f y).
Qed.
Lemma below_perm v a b : a ≡ₚ b → below v a = below v b.
Proof. intros H. unfold below. by rewrite (filter_len_perm _ _ _ H). Qed.
Lemma above_perm v a b : a ≡ₚ b → above v a = above v b.
Proof. intros H. unfold above. by rewrite (filter_len_perm _ _ _ H). Qed.
Lemma filter_len_le {A} (f : A → bool) l : (length (List.filter f l) <= length l)%nat.
Proof. induction l as [|x l IH]; [done|]. cbn. destruct (f x); cbn; lia. Qed.
Lemma filter_len_none {A} (f : A → bool) l : (∀ x, x ∈ l → f x = false) → length (List.filter f l) = 0%nat.
Proof.
  induction l as [|x l IH]; intros H; [done|]. cbn. rewrite (H x) by left. apply IH. intros y Hy. apply H. by right.
Qed.
Lemma below_le v pre post : Forall (λ e, 0 < e.2) pre → Forall (λ e, 0 < e.2) post → (∀ e, e ∈ post → (v <= e.1)%Q) →
  below v (expand (pre ++ post)) <= total pre.
Proof.
  intros Hp Hp' Hge. unfold below. rewrite expand_app, List.filter_app, app_length.
  rewrite (filter_len_none _ (expand post)).
  - rewrite <- (expand_length pre Hp). pose proof (filter_len_le (λ x, negb (Qle_bool v x)) (expand pre)). lia.
  - intros x Hx. apply elem_of_expand in Hx as (e & He & <-); [|done]. apply negb_false_iff, Qle_bool_iff. by apply Hge.
Qed.
Lemma above_le v pre post : Forall (λ e, 0 < e.2) pre → Forall (λ e, 0 < e.2) post → (∀ e, e ∈ pre → (e.1 <= v)%Q) →
  above v (expand (pre ++ post)) <= total post.
Proof.
  intros Hp' Hp Hge. unfold above. rewrite expand_app, List.filter_app, app_length.
  rewrite (filter_len_none _ (expand pre)).
  - rewrite <- (expand_length post Hp). pose proof (filter_len_le (λ x, negb (Qle_bool x v)) (expand post)). lia.
  - intros x Hx. apply elem_of_expand in Hx as (e & He & <-); [|done]. apply negb_false_iff, Qle_bool_iff. by apply Hge.
Qed.

Lemma sorted_split (pre : list (Q * Z)) e post : StronglySorted (λ a b, vc_leb a b = true) (pre ++ e :: post) →
  (∀ x, x ∈ pre → (x.1 <= e.1)%Q) ∧ (∀ x, x ∈ post → (e.1 <= x.1)%Q) ∧
  (∀ l x, list.last pre = Some l → x ∈ pre → (x.1 <= l.1)%Q).
Proof.
  intros H.
  assert (∀ i j a b, (i < j)%nat → (pre ++ e :: post) !! i = Some a → (pre ++ e :: post) !! j = Some b → (a.1 <= b.1)%Q) as Hs.
  { intros i j a b Hij Ha Hb. pose proof (StronglySorted_lookup _ _ i j a b H Hij Ha Hb) as E.
    apply vc_leb_spec in E as [?|[? ?]]; lra. }
  split_and!.
  - intros x [i Hi]%elem_of_list_lookup. pose proof (lookup_lt_Some _ _ _ Hi). apply (Hs i (length pre)); [done| |].
    + by rewrite lookup_app_l.
    + by rewrite lookup_app_r, Nat.sub_diag by lia.
  - intros x [i Hi]%elem_of_list_lookup. apply (Hs (length pre) (length pre + S i)%nat); [lia| |].
    + by rewrite lookup_app_r, Nat.sub_diag by lia.
    + rewrite lookup_app_r by lia. by replace (length pre + S i - length pre)%nat with (S i) by lia.
  - intros l x Hl [i Hi]%elem_of_list_lookup. pose proof (lookup_lt_Some _ _ _ Hi) as Hlt. rewrite last_lookup in Hl.
    destruct (decide (i = pred (length pre))) as [->|Hne]; [rewrite Hi in Hl; injection Hl as <-; lra|].
    apply (Hs i (pred (length pre))); [lia|by rewrite lookup_app_l|]. rewrite lookup_app_l by lia. done.
Qed.

Lemma mix_between (a b : Q) d : (a <= b)%Q → 0 <= d < 4 →
  (a <= (a * inject_Z (4 - d) + b * inject_Z d) / 4)%Q ∧ ((a * inject_Z (4 - d) + b * inject_Z d) / 4 <= b)%Q.
Proof.
  intros Hab Hd. assert (∀ p q : Q, ((a * p + b * q) / 4 == a * (p * (1 # 4)) + b * (q * (1 # 4)))%Q) as E by (intros p q; field).
  assert (d = 0 ∨ d = 1 ∨ d = 2 ∨ d = 3) as [->|[->|[-> | ->]]] by lia; rewrite E.
  - change (inject_Z (4 - 0) * (1 # 4))%Q with (4 # 4)%Q. change (inject_Z 0 * (1 # 4))%Q with (0 # 4)%Q. lra.
  - change (inject_Z (4 - 1) * (1 # 4))%Q with (3 # 4)%Q. change (inject_Z 1 * (1 # 4))%Q with (1 # 4)%Q. lra.
  - change (inject_Z (4 - 2) * (1 # 4))%Q with (2 # 4)%Q. change (inject_Z 2 * (1 # 4))%Q with (2 # 4)%Q. lra.
  - change (inject_Z (4 - 3) * (1 # 4))%Q with (1 # 4)%Q. change (inject_Z 3 * (1 # 4))%Q with (3 # 4)%Q. lra.
Qed.

Lemma iqr_quartile k vc xs : vc ≠ [] → Forall (λ e, 0 < e.2) vc → xs ≡ₚ spelled vc → 0 < k < 4 →
  ∃ v, iqr_of k vc = Ok v ∧ quartile k v xs.
Proof.
  intros Hne Hpos Hxs Hk. change (spelled vc) with (expand vc) in Hxs. unfold iqr_of. change (fold_right Z.add 0 (map snd vc)) with (total vc).
  set (VC := py_sort vc_leb vc). assert (VC ≡ₚ vc) as HVC by apply py_sort_perm.
  assert (StronglySorted (λ a b, vc_leb a b = true) VC) as Hsort by (apply py_sort_sorted; [apply vc_leb_total|apply vc_leb_trans]).
  assert (Forall (λ e, 0 < e.2) VC) as HposV by (by rewrite HVC).
  assert (xs ≡ₚ expand VC) as HxV by (rewrite Hxs; apply expand_perm; by symmetry).
  rewrite <- (total_perm _ _ HVC).
  assert (VC ≠ []) as HneV by (intros E; rewrite E in HVC; by apply Permutation_nil in HVC).
  assert (1 <= total VC) as Ht.
  { destruct VC as [|e V]; [done|]. apply list.Forall_cons in HposV as [He HV]. apply total_nonneg in HV. unfold total in *. cbn. lia. }
  clearbody VC. destruct (split_total VC (k * total VC) 0 HposV) as (pre & e & post & -> & Hlo & Hhi); [nia|].
  set (t := total (pre ++ e :: post)) in *. rewrite !Z.add_0_l in Hlo, Hhi.
  assert (t = total pre + e.2 + total post) as Et. { subst t. rewrite total_app. unfold total. cbn. lia. }
  apply list.Forall_app in HposV as [Hpre Hep]. pose proof Hep as Hep'. apply list.Forall_cons in Hep' as [He Hpost].
  destruct (sorted_split _ _ _ Hsort) as (S1 & S2 & S3).
  fold (run k t (pre ++ e :: post) (IqrAcc 0 None 0)).
  rewrite (run_app k t pre (e :: post) _ _ (run_low k t pre (IqrAcc 0 None 0) Hpre ltac:(cbn; lia))). cbn [i_cnt i_prev i_val]. rewrite Z.add_0_l.
  assert (zlen xs = t) as Hlen.
  { rewrite HxV. subst t. apply expand_length. rewrite list.Forall_app. done. }
  assert (∀ v, (∀ x, x ∈ pre → (x.1 <= v)%Q) → (v <= e.1)%Q → 4 * total pre = k * t → quartile k v xs) as Hmix.
  { intros v Hv1 Hv2 Heq. unfold quartile. rewrite Hlen, (below_perm _ _ _ HxV), (above_perm _ _ _ HxV). split.
    - pose proof (below_le v pre (e :: post) Hpre Hep) as B. rewrite <- Heq. apply Z.mul_le_mono_nonneg_l; [lia|]. apply B.
      intros x [->|Hx]%elem_of_cons; [done|]. apply S2 in Hx. lra.
    - pose proof (above_le v pre (e :: post) Hpre Hep Hv1) as B. unfold total in B at 1. cbn [map fold_right] in B. fold (total post) in B. lia. }
  unfold run. cbn [fold_left res_bind]. destruct e as [v c]. cbn [fst snd] in *. unfold iqr_step at 2. cbn [i_cnt i_prev i_val].
  destruct (Z.eqb_spec (4 * total pre) (k * t)) as [Heq|Hneq].
  - assert ((4 * total pre <? k * t) = false) as -> by lia. cbn [andb].
    destruct (list.last pre) as [l|] eqn:El.
    2:{ apply last_None in El. subst pre. change (total []) with 0 in Heq. assert (0 < k * t) by (apply Z.mul_pos_pos; lia). lia. }
    assert ((l.1 <= v)%Q) as Hlv. { apply S1. rewrite last_lookup in El. by eapply elem_of_list_lookup_2. }
    destruct (mix_between l.1 v ((k * (t - 1)) mod 4) Hlv ltac:(apply Z.mod_pos_bound; lia)) as [M1 M2].
    match goal with |- context [fold_left _ post (Ok ?s)] => destruct (run_high k t post s Hpost) as (s' & Hs' & Hv'); [cbn; lia|] end.
    unfold run in Hs'. rewrite Hs'. eexists. split; [done|]. rewrite Hv'. cbn [i_val]. apply Hmix; [|done|done].
    intros x Hx. specialize (S3 _ _ eq_refl Hx). lra.
  - assert ((4 * total pre <? k * t) = true) as -> by lia. assert ((k * t <? 4 * (total pre + c)) = true) as -> by lia. cbn [andb].
    match goal with |- context [fold_left _ post (Ok ?s)] => destruct (run_high k t post s Hpost) as (s' & Hs' & Hv'); [cbn; lia|] end.
    unfold run in Hs'. rewrite Hs'. eexists. split; [done|]. rewrite Hv'. cbn [i_val].
    unfold quartile. rewrite Hlen, (below_perm _ _ _ HxV), (above_perm _ _ _ HxV). split.
    + pose proof (below_le v pre ((v, c) :: post) Hpre Hep) as B. assert (below v (expand (pre ++ (v, c) :: post)) <= total pre); [|lia].
      apply B. intros x [->|Hx]%elem_of_cons; [cbn; lra|]. by apply S2.
    + pose proof (above_le v (pre ++ [(v, c)]) post) as B. rewrite <- app_assoc in B. cbn [app] in B.
      assert (above v (expand (pre ++ (v, c) :: post)) <= total post); [|lia]. apply B; [by rewrite list.Forall_app, list.Forall_singleton|done|].
      intros x [Hx|Hx%elem_of_list_singleton]%elem_of_app; [by apply S1|subst x; cbn; lra].
Qed.

Lemma quartiles_order lo hi xs : xs ≠ [] → quartile 1 lo xs → quartile 3 hi xs → (lo <= hi)%Q.
Proof.
  intros Hne [H1 _] [_ H3]. destruct (Qlt_le_dec hi lo) as [Hlt|]; [|done]. exfalso.
  assert (zlen xs <= below lo xs + above hi xs) as Hs.
  { unfold below, above. clear Hne H1 H3. induction xs as [|x xs IH]; [done|]. cbn [List.filter].
    destruct (Qle_bool lo x) eqn:E1, (Qle_bool x hi) eqn:E2; cbn [negb length]; try lia.
    apply Qle_bool_iff in E1, E2. lra. }
  destruct xs; [done|]. cbn [length] in *. lia.
Qed.

(** ** Numbers *)
Section Numbers.
  Context (root : Q → Q).
  Lemma numeric_spec vc xs : vc ≠ [] → Forall (λ e, 0 < e.2) vc → xs ≡ₚ spelled vc →
    ∃ n, numeric root vc = Ok n ∧
      (n_min n ∈ xs ∧ ∀ x, x ∈ xs → (n_min n <= x)%Q) ∧ (n_max n ∈ xs ∧ ∀ x, x ∈ xs → (x <= n_max n)%Q) ∧
      (n_mode n ∈ xs) ∧
      figures root xs (n_median n) (n_mean n) (n_stdev n) (n_sum n) (n_low n) (n_high n) (n_iqr n).
  Proof.
    intros Hne Hpos Hxs. destruct (numeric_summary_spec vc xs Hne Hpos Hxs) as (s & m & d & Hs & Hmin & Hmax & Hsum & Hmean & Hvar & [Hd Hmed] & Hm & Hmx & _).
    destruct (iqr_quartile 1 vc xs Hne Hpos Hxs) as (lo & Hlo & Qlo); [lia|]. destruct (iqr_quartile 3 vc xs Hne Hpos Hxs) as (hi & Hhi & Qhi); [lia|].
    unfold numeric. rewrite Hs. cbn [res_bind]. rewrite Hd, Hm, Hlo. cbn [res_bind]. rewrite Hhi. cbn [res_map].
    eexists. split; [done|]. unfold figures. cbn [n_min n_max n_mode n_median n_mean n_stdev n_sum n_low n_high n_iqr].
    assert (∃ w, root (st_var s) = root w ∧ (w == if (1 <? length xs)%nat then qvar xs else 0)%Q) by (by eexists). split_and!; try done; try (by apply Hmin); try (by apply Hmax).
    pose proof (quartiles_order lo hi xs) as O. assert ((lo <= hi)%Q); [|lra]. apply O; try done. intros ->. by apply elem_of_nil in Hmx.
  Qed.
End Numbers.

(** ** The type *)
Lemma first_best_spec {A} (l : list (A * Z)) : l ≠ [] → ∃ b, first_best l = Some b ∧ b ∈ l ∧ ∀ e, e ∈ l → e.2 <= b.2.
Proof.
  unfold first_best. intros H.
  assert (∀ l (b : A * Z), ∃ c, fold_left (λ best e, match best with None => Some e | Some b => if b.2 <? e.2 then Some e else Some b end) l (Some b) = Some c ∧
    (c = b ∨ c ∈ l) ∧ b.2 <= c.2 ∧ ∀ e, e ∈ l → e.2 <= c.2) as G.
  { clear. induction l as [|x l IH]; intros b; cbn [fold_left].
    - exists b. split; [done|]. split; [by left|]. split; [lia|]. intros e He. by apply elem_of_nil in He.
    - destruct (Z.ltb_spec b.2 x.2).
      + destruct (IH x) as (c & Hc & Hin & Hle & Hall). exists c. split; [done|]. split; [right; destruct Hin as [->|?]; [left|by right]|].
        split; [lia|]. intros e [->|He]%elem_of_cons; [lia|auto].
      + destruct (IH b) as (c & Hc & Hin & Hle & Hall). exists c. split; [done|]. split; [destruct Hin as [->|?]; [by left|right; by right]|].
        split; [lia|]. intros e [->|He]%elem_of_cons; [lia|auto]. }
  destruct l as [|x l]; [done|]. cbn [fold_left]. destruct (G l x) as (c & Hc & Hin & Hle & Hall). exists c. split; [done|].
  split; [destruct Hin as [->|?]; [left|by right]|]. intros e [->|He]%elem_of_cons; [lia|auto].
Qed.

Lemma type_totals_fold h : ∀ d, NoDup d.*1 →
  let d' := fold_left (λ d e, dset d (vtype_of e.1) (dget_or d (vtype_of e.1) 0 + e.2)) h d in
  NoDup d'.*1 ∧ (∀ t, dget_or d' t 0 = dget_or d t 0 + type_count t h) ∧ (∀ t, t ∈ d'.*1 ↔ t ∈ d.*1 ∨ t ∈ map (λ e, vtype_of e.1) h).
Proof.
  induction h as [|e h IH]; intros d Hd; cbn zeta; cbn [fold_left].
  - split; [done|]. split; [intros t; unfold type_count; cbn; lia|]. intros t. cbn [map]. split; [auto|]. intros [?|H%elem_of_nil]; [done|done].
  - destruct (IH (dset d (vtype_of e.1) (dget_or d (vtype_of e.1) 0 + e.2))) as (H1 & H2 & H3); [by apply dset_NoDup|].
    split; [done|]. split.
    + intros t. rewrite H2. unfold dget_or at 1. rewrite dget_dset. unfold type_count. rewrite filter_cons. destruct (decide (vtype_of e.1 = t)) as [->|Hne].
      * rewrite decide_True by done. cbn [from_option map fold_right snd]. unfold id. lia.
      * rewrite decide_False by done. fold (dget_or d t 0). lia.
    + intros t. rewrite H3. cbn [map]. rewrite elem_of_cons, dset_keys. destruct (decide (vtype_of e.1 ∈ d.*1)).
      * split; [intros [?|?]; auto|]. intros [?|[->|?]]; auto.
      * rewrite elem_of_app, elem_of_list_singleton. tauto.
Qed.

Lemma type_count_nonneg t h : Forall (λ e : value * Z, 0 < e.2) h → 0 <= type_count t h.
Proof.
  intros H. unfold type_count. induction H as [|e h He Hh IH]; [done|]. rewrite filter_cons. destruct (decide _); cbn; lia.
Qed.
Lemma type_count_pos t h : Forall (λ e : value * Z, 0 < e.2) h → t ∈ map (λ e, vtype_of e.1) h → 0 < type_count t h.
Proof.
  intros H. induction H as [|e h He Hh IH]; intros Hin; [by apply elem_of_nil in Hin|].
  pose proof (type_count_nonneg t h Hh) as H0. unfold type_count in *. rewrite filter_cons. destruct (decide (vtype_of e.1 = t)).
  - cbn. lia.
  - apply IH. apply elem_of_cons in Hin as [?|?]; [congruence|done].
Qed.

Section Report.
  Context (root : Q → Q) (stamp : ymd → Z → Q) (unstamp : Q → res (ymd * Z)).

  Lemma statistics_type h : h ≠ [] → Forall (λ e, 0 < e.2) h → ∃ t,
    (∀ t', type_count t' h <= type_count t h) ∧ t ∈ map (λ e, vtype_of e.1) h ∧
    summary_statistics root stamp unstamp h
    = res_map (λ s, Some (Report s (zlen h) t h)) (summary_of root stamp unstamp t (filter (λ e, vtype_of e.1 = t) h)).
  Proof.
    intros Hne Hpos. unfold summary_statistics. destruct (type_totals_fold h []) as (H1 & H2 & H3); [constructor|].
    change (fold_left _ h []) with (type_totals h) in *.
    assert (∀ t, t ∈ (type_totals h).*1 → dget (type_totals h) t = Some (type_count t h)) as Hget.
    { intros t Ht. specialize (H2 t). unfold dget_or in H2. destruct (dget (type_totals h) t) as [c|] eqn:E; [cbn in H2; f_equal; lia|].
      by apply dget_None in E. }
    destruct (first_best_spec (type_totals h)) as ([t c] & Hb & Hin & Hall).
    { intros E. destruct h as [|e h]; [done|]. assert (vtype_of e.1 ∈ (type_totals (e :: h)).*1) as Hx by (apply H3; right; left).
      rewrite E in Hx. by apply elem_of_nil in Hx. }
    assert (t ∈ (type_totals h).*1) as Ht by (apply elem_of_list_fmap; by exists (t, c)).
    assert (c = type_count t h) as -> by (apply (dget_Some _ _ _ H1) in Hin; rewrite Hget in Hin by done; by injection Hin).
    assert (t ∈ map (λ e, vtype_of e.1) h) as Htm. { apply H3 in Ht as [Ht|Ht]; [by apply elem_of_nil in Ht|done]. }
    rewrite Hb. cbn [fmap option_fmap option_map fst].
    assert (existsb (λ e, 0 <? e.2) (type_totals h) = true) as ->.
    { apply existsb_exists. exists (t, type_count t h). split; [by apply elem_of_list_In|]. cbn. apply Z.ltb_lt. by apply type_count_pos. }
    exists t. split; [|done]. intros t'. destruct (decide (t' ∈ (type_totals h).*1)) as [Ht'|Ht'].
    - specialize (Hall (t', type_count t' h)). apply Hall. apply dget_Some; [done|]. by apply Hget.
    - specialize (H2 t'). apply dget_None in Ht'. unfold dget_or in H2. rewrite Ht' in H2. cbn in H2.
      pose proof (type_count_nonneg t h Hpos). lia.
  Qed.

  Lemma filter_same t (h : list (value * Z)) : (∀ e, e ∈ h → vtype_of e.1 = t) → filter (λ e : value * Z, vtype_of e.1 = t) h = h.
  Proof.
    induction h as [|e h IH]; intros H; [done|]. rewrite filter_cons_True by (apply H; left). f_equal. apply IH.
    intros x Hx. apply H. by right.
  Qed.
  Lemma homogeneous t h : h ≠ [] → Forall (λ e, 0 < e.2 ∧ vtype_of e.1 = t) h →
    summary_statistics root stamp unstamp h = res_map (λ s, Some (Report s (zlen h) t h)) (summary_of root stamp unstamp t h).
  Proof.
    intros Hne H. rewrite list.Forall_forall in H. destruct (statistics_type h Hne) as (t' & _ & Hin & ->).
    { apply list.Forall_forall. intros e He. by apply H. }
    assert (t' = t) as ->. { apply elem_of_list_fmap in Hin as (e & -> & He). by apply H. }
    rewrite filter_same; [done|]. intros e He. by apply H.
  Qed.
  Lemma statistics_filter h r : Forall (λ e, 0 < e.2) h → summary_statistics root stamp unstamp h = Ok (Some r) →
    (∀ t, type_count t h <= type_count (r_type r) h) ∧ r_distinct r = zlen h ∧ r_histogram r = h ∧
    ∃ r', summary_statistics root stamp unstamp (filter (λ e, vtype_of e.1 = r_type r) h) = Ok (Some r') ∧ r_summary r' = r_summary r.
  Proof.
    intros Hpos Hr. destruct h as [|e0 h0] eqn:Eh; [done|]. rewrite <- Eh in *.
    destruct (statistics_type h) as (t & Hmax & Hin & E); [by subst|done|]. rewrite E in Hr.
    destruct (summary_of root stamp unstamp t (filter _ h)) as [s|] eqn:Es; [|done]. cbn in Hr. injection Hr as <-. cbn [r_type r_distinct r_histogram r_summary].
    split; [done|]. split; [done|]. split; [done|].
    rewrite (homogeneous t).
    - rewrite Es. cbn. eexists. split; [done|]. done.
    - intros E0. apply elem_of_list_fmap in Hin as (e & -> & He). assert (e ∈ filter (λ e', vtype_of e'.1 = vtype_of e.1) h) as Hx by (by apply elem_of_list_filter).
      rewrite E0 in Hx. by apply elem_of_nil in Hx.
    - apply list.Forall_forall. intros e [H1 H2]%elem_of_list_filter. rewrite list.Forall_forall in Hpos. auto.
  Qed.
End Report.
