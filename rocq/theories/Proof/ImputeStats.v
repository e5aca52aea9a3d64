(** The value which mean and mode imputation fill in. *)
From Verif.Spec Require Export Statistics Counts Impute.
From Coq Require Import Lqa Sorted ZifyBool.
From Verif.Proof Require Import StatsProofs DictLemmas ColumnStatsProofs.
From Verif.Model Require Import Imputation.
Local Open Scope Z_scope.

Local Notation total := StatsProofs.total.

(** ** Zero counts *)
Definition pos (e : Q * Z) : Prop := 0 < e.2.
Global Instance pos_dec e : Decision (pos e). Proof. unfold pos. apply _. Defined.

Lemma py_sort_id {B} (leb : B → B → bool) l : StronglySorted (λ a b, leb a b = true) l → py_sort leb l = l.
Proof.
  induction 1 as [|x l Hl IH Hx]; [done|]. unfold py_sort in *. cbn [fold_right]. rewrite IH.
  destruct l as [|y l]; [done|]. cbn [py_insert]. apply list.Forall_cons in Hx as [-> _]. done.
Qed.
Lemma sorted_filter {B} (R : B → B → Prop) (P : B → Prop) `{∀ x, Decision (P x)} l :
  StronglySorted R l → StronglySorted R (filter P l).
Proof.
  induction 1 as [|x l Hl IH Hx]; [constructor|]. rewrite filter_cons. case_decide; [|done]. constructor; [done|].
  apply list.Forall_forall. intros y [_ Hy]%elem_of_list_filter. exact (proj1 (list.Forall_forall _ _) Hx y Hy).
Qed.

Record related (s s' : stats_acc) : Prop := MkRelated {
  r_cnt : a_cnt s = a_cnt s'; r_mode : a_mode s = a_mode s'; r_max : a_maxcnt s = a_maxcnt s';
  r_total : (a_total s == a_total s')%Q;
  r_pos : 0 <= a_cnt s; r_prev : a_prev s = None → a_cnt s = 0; r_prev' : a_prev s' = None → a_cnt s = 0;
  r_first : a_cnt s = 0 ∨ 0 <= a_maxcnt s }.

Lemma stats_step_Ok t s e : 0 < t → 0 <= a_cnt s → (a_prev s = None → a_cnt s = 0) → 0 < a_cnt s + e.2 →
  ∃ r, stats_step t s e = Ok r ∧ a_cnt r = a_cnt s + e.2 ∧
    (a_mode r, a_maxcnt r) = (if a_maxcnt s <? e.2 then (Some e.1, e.2) else (a_mode s, a_maxcnt s)) ∧
    a_total r = (a_total s + e.1 * inject_Z e.2)%Q ∧ a_prev r = Some e.1.
Proof.
  intros Ht Hc Hp Hn. destruct e as [v c]. cbn [fst snd] in *. unfold stats_step.
  assert ((a_cnt s + c =? 0) = false) as -> by lia.
  destruct (if a_maxcnt s <? c then (Some v, c) else (a_mode s, a_maxcnt s)) as [mode maxc].
  destruct (_ && _); [by eexists|]. destruct (2 * a_cnt s =? t) eqn:E; [|by eexists].
  destruct (a_prev s); [by eexists|]. rewrite Hp in E by done. lia.
Qed.

Lemma stats_zeros t l : 0 < t → Forall (λ e : Q * Z, 0 <= e.2) l → ∀ s s', related s s' →
  (a_cnt s = 0 → match l with [] => True | e :: _ => 0 < e.2 end) →
  ∃ r r', fold_left (λ acc e, res_bind acc (λ s, stats_step t s e)) l (Ok s) = Ok r ∧
          fold_left (λ acc e, res_bind acc (λ s, stats_step t s e)) (filter pos l) (Ok s') = Ok r' ∧ related r r'.
Proof.
  intros Ht. induction 1 as [|e l He Hl IH]; intros s s' [H1 H2 H3 H4 H5 H6 H7 H8] Hs; [by exists s, s'|].
  cbn [fold_left res_bind].
  destruct (stats_step_Ok t s e Ht H5 H6) as (r & -> & Hr1 & Hr2 & Hr3 & Hr4).
  { destruct (decide (a_cnt s = 0)); [specialize (Hs e0)|]; lia. }
  rewrite filter_cons. destruct (decide (pos e)) as [Hp|Hp].
  - cbn [fold_left res_bind]. unfold pos in Hp.
    destruct (stats_step_Ok t s' e Ht) as (r' & -> & Hr1' & Hr2' & Hr3' & Hr4'); [lia| |lia|].
    { intros Hq. rewrite <- H1. by apply H7. }
    apply IH; [|lia]. rewrite <- H2, <- H3, <- Hr2 in Hr2'. injection Hr2' as Ea Eb. split.
    + lia.
    + done.
    + done.
    + by rewrite Hr3, Hr3', H4.
    + lia.
    + by rewrite Hr4.
    + by rewrite Hr4'.
    + right. apply (f_equal snd) in Hr2. cbn [snd] in Hr2. rewrite Hr2. destruct (_ <? _) eqn:E; cbn; lia.
  - unfold pos in Hp. assert (He0 : e.2 = 0) by lia.
    assert (Hne : a_cnt s ≠ 0) by (intros Hz; specialize (Hs Hz); lia).
    assert (Em : (a_maxcnt s <? e.2) = false) by lia. rewrite Em in Hr2. injection Hr2 as Ea Eb.
    apply IH; [|lia]. split.
    + lia.
    + congruence.
    + congruence.
    + rewrite Hr3, He0, <- H4. change (inject_Z 0) with 0%Q. ring.
    + lia.
    + by rewrite Hr4.
    + intros Hq. apply H7 in Hq. lia.
    + right. lia.
Qed.

Lemma total_zeros (l : list (Q * Z)) : Forall (λ e, 0 <= e.2) l → total (filter pos l) = total l.
Proof.
  induction 1 as [|e l He Hl IH]; [done|]. rewrite filter_cons. unfold total in *. destruct (decide (pos e)) as [Hp|Hp]; cbn [map fold_right]; [by rewrite IH|].
  unfold pos in Hp. rewrite IH. lia.
Qed.
Lemma summary_zeros (vc : list (Q * Z)) : Forall (λ e, 0 <= e.2) vc →
  (∀ e, e ∈ vc → e.2 = 0 → ∃ e', e' ∈ vc ∧ 0 < e'.2 ∧ (e'.1 < e.1)%Q) → vc ≠ [] →
  ∃ s s', numeric_summary vc = Ok s ∧ numeric_summary (filter pos (py_sort vc_leb vc)) = Ok s' ∧
    (st_mean s == st_mean s')%Q ∧ st_mode s = st_mode s'.
Proof.
  intros Hnn Hz Hne.
  set (VC := py_sort vc_leb vc).
  assert (HVC : VC ≡ₚ vc) by apply py_sort_perm.
  assert (Hs : StronglySorted (λ a b, vc_leb a b = true) VC) by (apply py_sort_sorted; [apply vc_leb_total|apply vc_leb_trans]).
  assert (Hnn' : Forall (λ e, 0 <= e.2) VC) by (by rewrite HVC).
  destruct VC as [|e VC'] eqn:EV.
  { apply Permutation_nil_l in HVC. congruence. }
  assert (He : 0 < e.2).
  { assert (Hin : e ∈ vc) by (rewrite <- HVC; left). pose proof (proj1 (list.Forall_forall _ _) Hnn e Hin) as H0. cbn beta in H0.
    destruct (decide (e.2 = 0)) as [E|E]; [|lia]. destruct (Hz e Hin E) as (e' & Hin' & Hp & Hlt).
    rewrite <- HVC in Hin'. apply elem_of_cons in Hin' as [->|Hin']; [lia|].
    apply StronglySorted_inv in Hs as [_ Hs]. pose proof (proj1 (list.Forall_forall _ _) Hs e' Hin') as Hle. cbn beta in Hle.
    apply vc_leb_spec in Hle as [?|[? _]]; lra. }
  assert (Ht : total vc = total (e :: VC')) by (symmetry; by apply total_perm).
  assert (Htp : 0 < total vc).
  { rewrite Ht, <- (total_zeros (e :: VC') Hnn'). rewrite filter_cons, decide_True by done.
    assert (0 <= total (filter pos VC')).
    { apply total_nonneg, list.Forall_forall. by intros x [? _]%elem_of_list_filter. }
    unfold total in *. cbn [map fold_right]. lia. }
  destruct (stats_zeros (total vc) (e :: VC') Htp Hnn' (Acc 0 None 0 0 None (-1) 0 None) (Acc 0 None 0 0 None (-1) 0 None))
    as (r & r' & Hr & Hr' & [R1 R2 R3 R4 R5 R6 R7 R8]).
  { split; cbn; try done; lia. }
  { done. }
  unfold numeric_summary at 1. fold VC. rewrite EV.
  destruct (last_is_Some (e :: VC')) as [_ [lst Hlst]]; [done|]. rewrite Hlst. fold (total vc). rewrite Hr.
  assert ((total vc <? 1) = false) as -> by lia.
  assert (Hf : filter pos (e :: VC') = e :: filter pos VC') by (by rewrite filter_cons, decide_True).
  unfold numeric_summary. rewrite py_sort_id by (by apply sorted_filter).
  rewrite Hf in Hr' |- *. destruct (last_is_Some (e :: filter pos VC')) as [_ [lst' Hlst']]; [done|]. rewrite Hlst'.
  fold (total (e :: filter pos VC')). rewrite <- Hf, (total_zeros _ Hnn'), Hf, <- Ht, Hr'.
  assert ((total vc <? 1) = false) as -> by lia.
  eexists _, _. split; [reflexivity|]. split; [reflexivity|]. cbn [st_mean st_mode]. split; [|done]. by rewrite R4.
Qed.

(** ** Counts *)
Lemma counts_expand {K} `{EqDecision K} (d : list (K * Z)) : ∀ ks, counts_exactly d ks →
  ks ≡ₚ concat (map (λ e, replicate (Z.to_nat e.2) e.1) d).
Proof.
  induction d as [|[k n] d IH]; intros ks [Hnd Hd]; cbn [map concat].
  - destruct ks as [|k ks]; [done|]. exfalso.
    apply (not_elem_of_nil (k, count_if (λ k', k' = k) (k :: ks))). apply Hd. split; [|done].
    unfold count_if. rewrite filter_cons, decide_True by done. cbn [length]. lia.
  - apply list.NoDup_cons in Hnd as [Hk Hnd]. cbn [fst snd].
    assert (Hn : 0 < n ∧ n = count_if (λ k', k' = k) ks) by (apply Hd; left).
    assert (Hsplit : ks ≡ₚ filter (λ k', k' = k) ks ++ filter (λ k', k' ≠ k) ks).
    { clear. induction ks as [|x ks IH]; [done|]. rewrite !filter_cons. destruct (decide (x = k)) as [E|E].
      - rewrite decide_False by (intros ?; done). cbn. by rewrite <- IH.
      - rewrite decide_True by done. rewrite IH at 1. apply Permutation_middle. }
    rewrite Hsplit at 1. apply Permutation_app.
    + destruct Hn as [_ ->]. unfold count_if. rewrite Nat2Z.id. clear.
      induction ks as [|x ks IH]; [done|]. rewrite filter_cons. case_decide as E; [|done]. subst. cbn. by constructor.
    + apply IH. split; [done|]. intros k' m.
      assert (Hc : k' ≠ k → count_if (λ x, x = k') (filter (λ x, x ≠ k) ks) = count_if (λ x, x = k') ks).
      { intros Hne. unfold count_if. do 2 f_equal. clear -Hne. induction ks as [|x ks IH]; [done|].
        rewrite (filter_cons _ x). destruct (decide (x ≠ k)) as [E|E].
        - rewrite !filter_cons. by case_decide; rewrite ?IH.
        - rewrite filter_cons, decide_False; [done|]. intros ->. by apply E. }
      destruct (decide (k' = k)) as [->|Hne].
      * split.
        -- intros H. assert (H' : (k, m) ∈ (k, n) :: d) by (by right). apply Hd in H'. destruct Hn as [_ Hn]. destruct H' as [_ H'].
           subst. by destruct Hk.
        -- intros [Hm ->]. exfalso. assert (filter (λ x, x = k) (filter (λ x, x ≠ k) ks) = []) as E.
           { clear. induction ks as [|x ks IH]; [done|]. rewrite (filter_cons _ x). case_decide; [|done].
             rewrite filter_cons, decide_False by done. done. }
           unfold count_if in Hm. rewrite E in Hm. cbn in Hm. lia.
      * rewrite Hc by done. rewrite <- Hd, elem_of_cons. naive_solver.
Qed.

Lemma first_max_spec {T} (d : list (T * Z)) : d ≠ [] →
  ∃ b, first_max d = Some b ∧ b ∈ d ∧ ∀ e, e ∈ d → e.2 <= b.2.
Proof.
  unfold first_max.
  assert (H : ∀ (d : list (T * Z)) b, ∃ b', fold_left (λ m e, match m with None => Some e | Some b => if b.2 <? e.2 then Some e else m end) d (Some b) = Some b'
    ∧ (b' = b ∨ b' ∈ d) ∧ b.2 <= b'.2 ∧ ∀ e, e ∈ d → e.2 <= b'.2).
  { clear. induction d as [|e d IH]; intros b; cbn [fold_left].
    - exists b. split_and!; [done|by left|lia|]. intros e He. by apply elem_of_nil in He.
    - destruct (Z.ltb_spec b.2 e.2) as [Hlt|Hge].
      + destruct (IH e) as (b' & -> & Hb & Hle & Hall). exists b'. split_and!; [done| |lia|].
        * right. destruct Hb as [->|Hb]; [by left|by right].
        * intros x [->|Hx]%elem_of_cons; [done|by apply Hall].
      + destruct (IH b) as (b' & -> & Hb & Hle & Hall). exists b'. split_and!; [done| |lia|].
        * destruct Hb as [->|Hb]; [by left|by right; right].
        * intros x [->|Hx]%elem_of_cons; [lia|by apply Hall]. }
  intros Hd. destruct d as [|e d]; [done|]. cbn [fold_left]. destruct (H d e) as (b & -> & Hb & Hle & Hall).
  exists b. split_and!; [done| |].
  - destruct Hb as [->|Hb]; [by left|by right].
  - intros x [->|Hx]%elem_of_cons; [done|by apply Hall].
Qed.

Section value.
  Context {A T K : Type} `{EqDecision T, EqDecision K} (ty : A → T) (key : A → K).
  Notation entry := ((T * K) * Z)%type.

  Lemma zero_map (hist : list entry) m : NoDup (map (λ e, e.1.2) hist) →
    zero_count hist m = map (λ e, if decide (e.1.2 = m) then (e.1, 0) else e) hist.
  Proof using Type.
    induction hist as [|e hist IH]; [done|]. cbn [map zero_count]. intros [Hn Hnd]%list.NoDup_cons. case_decide as E.
    - f_equal. rewrite <- (map_id hist) at 1. apply map_ext_in. intros x Hx%elem_of_list_In. rewrite decide_False; [done|].
      intros E'. apply Hn. rewrite E, <- E'. by apply (elem_of_list_fmap_1 (λ e : entry, e.1.2)).
    - by rewrite IH.
  Qed.
  Lemma zeros_map ms : ∀ hist : list entry, NoDup (map (λ e, e.1.2) hist) →
    fold_left zero_count ms hist = map (λ e, if decide (e.1.2 ∈ ms) then (e.1, 0) else e) hist.
  Proof using Type.
    induction ms as [|m ms IH]; intros hist Hnd; cbn [fold_left].
    - rewrite <- (map_id hist) at 1. apply map_ext. intros e. rewrite decide_False; [done|]. apply not_elem_of_nil.
    - rewrite zero_map by done. rewrite IH.
      + rewrite map_map. apply map_ext. intros e. destruct (decide (e.1.2 = m)) as [E|E]; cbn [fst].
        * rewrite (decide_True (P := e.1.2 ∈ m :: ms)) by (rewrite E; left). by case_decide.
        * destruct (decide (e.1.2 ∈ ms)); [by rewrite decide_True by (by right)|].
          rewrite decide_False; [done|]. rewrite not_elem_of_cons. done.
      + rewrite map_map. erewrite map_ext; [exact Hnd|]. intros e. by case_decide.
  Qed.

  (** entries of type [t] *)
  Definition of_type (t : T) (hist : list entry) : list (K * Z) :=
    omap (λ e : entry, if decide (e.1.1 = t) then Some (e.1.2, e.2) else None) hist.
  Lemma elem_of_type t hist k n : (k, n) ∈ of_type t hist ↔ ((t, k), n) ∈ hist.
  Proof using Type.
    unfold of_type. rewrite elem_of_list_omap. split.
    - intros ([[t' k'] n'] & Hin & H). cbn in H. case_decide; [|done]. injection H as -> ->. by subst.
    - intros H. exists ((t, k), n). split; [done|]. cbn. by rewrite decide_True.
  Qed.
  Definition tsum (t : T) (hist : list entry) : Z := fold_right Z.add 0 (map snd (of_type t hist)).
  Lemma type_totals_spec hist : NoDup (type_totals hist).*1 ∧
    ∀ t, dget (type_totals hist) t = if decide (t ∈ map (λ e : entry, e.1.1) hist) then Some (tsum t hist) else None.
  Proof using Type.
    unfold type_totals. induction hist as [|e hist IH] using rev_ind; [split; [constructor|done]|].
    rewrite fold_left_app. cbn [fold_left]. destruct IH as [IH1 IH2]. set (d := fold_left _ hist _) in *.
    split; [by apply dset_NoDup|]. intros t. rewrite dget_dset, map_app. cbn [map].
    assert (Hs : tsum t (hist ++ [e]) = tsum t hist + if decide (e.1.1 = t) then e.2 else 0).
    { unfold tsum, of_type. rewrite omap_app. cbn. case_decide; cbn [app]; [|rewrite app_nil_r; lia].
      rewrite map_app. generalize (map snd (omap (λ e : entry, if decide (e.1.1 = t) then Some (e.1.2, e.2) else None) hist)).
      induction l as [|x l IHl]; cbn in *; lia. }
    destruct (decide (t = e.1.1)) as [->|Hne].
    - rewrite decide_True by (rewrite elem_of_app, elem_of_list_singleton; by right). rewrite Hs, decide_True by done.
      unfold dget_or. rewrite IH2. clear Hs. case_decide as E; [done|]. f_equal.
      assert (of_type e.1.1 hist = []) as E0.
      { destruct (of_type e.1.1 hist) as [|[k n] l] eqn:El; [done|]. exfalso. apply E.
        assert (H : (k, n) ∈ of_type e.1.1 hist) by (rewrite El; left). apply elem_of_type in H.
        by apply (elem_of_list_fmap_1 (λ e : entry, e.1.1)) in H. }
      unfold tsum. rewrite E0. cbn. lia.
    - rewrite IH2, Hs, (decide_False (P := e.1.1 = t)) by congruence. rewrite Z.add_0_r.
      destruct (decide (t ∈ map (λ e : entry, e.1.1) hist)).
      + rewrite decide_True; [done|]. rewrite elem_of_app. by left.
      + rewrite decide_False; [done|]. rewrite elem_of_app, elem_of_list_singleton. intros [?|?]; done.
  Qed.

  Context (eqb : A → A → bool) (Heqb : ∀ x y, eqb x y = true ↔ key x = key y) (missing : list A).
  Notation is_missing := (is_missing eqb missing).
  Lemma missing_key x : is_missing x = true ↔ key x ∈ map key missing.
  Proof using Heqb.
    unfold Imputation.is_missing. rewrite existsb_exists. setoid_rewrite Heqb. rewrite elem_of_list_fmap. setoid_rewrite elem_of_list_In.
    split; intros (y & H1 & H2); exists y; split; congruence.
  Qed.
  Lemma known_key xs x : x ∈ known is_missing xs ↔ x ∈ xs ∧ key x ∉ map key missing.
  Proof using Heqb ty.
    unfold known. rewrite elem_of_list_filter, <- missing_key. destruct (is_missing x); naive_solver.
  Qed.

  (** the known values of type [t] *)
  Definition known_of (t : T) (xs : list A) : list A := filter (λ x, ty x = t) (known is_missing xs).

  Context (xs : list A) (Hfaith : type_faithful ty key xs).
  Context (hist : list entry) (Hhist : counts_exactly hist (map (λ x, (ty x, key x)) xs)).
  Lemma hist_in t k n : ((t, k), n) ∈ hist → ∃ x, x ∈ xs ∧ ty x = t ∧ key x = k.
  Proof using Hhist.
    intros [Hn E]%(proj2 Hhist). unfold count_if in E.
    destruct (filter (λ k', k' = (t, k)) (map (λ x, (ty x, key x)) xs)) as [|y l] eqn:El; [cbn in E; lia|].
    assert (H : y ∈ filter (λ k', k' = (t, k)) (map (λ x, (ty x, key x)) xs)) by (rewrite El; left).
    apply elem_of_list_filter in H as [-> (x & [= -> ->] & Hx)%elem_of_list_fmap]. by exists x.
  Qed.
  Lemma hist_keys : NoDup (map (λ e : entry, e.1.2) hist).
  Proof using Hhist Hfaith.
    apply NoDup_fmap_2_strong; [|by destruct Hhist].
    intros [[t k] n] [[t' k'] n'] H H' [= <-]. destruct (hist_in _ _ _ H) as (x & Hx & <- & <-).
    destruct (hist_in _ _ _ H') as (y & Hy & <- & Hk). assert (ty y = ty x) as E by (by apply Hfaith). rewrite E in *.
    apply (proj2 Hhist) in H as [_ ->], H' as [_ ->]. done.
  Qed.
  Definition zeroed : list entry := fold_left zero_count (map key missing) hist.
  Lemma zeroed_in t k n : ((t, k), n) ∈ zeroed ↔
    (k ∉ map key missing ∧ ((t, k), n) ∈ hist) ∨ (k ∈ map key missing ∧ n = 0 ∧ ∃ n', ((t, k), n') ∈ hist).
  Proof using Hhist Hfaith.
    unfold zeroed. rewrite zeros_map by apply hist_keys. rewrite elem_of_list_fmap. split.
    - intros ([[t' k'] n'] & E & Hin). cbn in E. case_decide; injection E as -> -> ->; [right|left]; eauto.
    - intros [[Hk Hin]|(Hk & -> & n' & Hin)].
      + eexists. split; [|exact Hin]. cbn. by rewrite decide_False.
      + eexists. split; [|exact Hin]. cbn. by rewrite decide_True.
  Qed.
  Lemma zeroed_keys : NoDup (map (λ e : entry, e.1.2) zeroed).
  Proof using Hhist Hfaith.
    unfold zeroed. rewrite zeros_map by apply hist_keys. rewrite map_map. erewrite map_ext; [apply hist_keys|].
    intros e. cbn. by case_decide.
  Qed.
  Lemma of_type_keys t : NoDup (map fst (of_type t zeroed)).
  Proof using Hhist Hfaith.
    pose proof zeroed_keys as H. revert H. generalize zeroed. induction l as [|e l IH]; intros H; [constructor|].
    cbn [map] in H. apply list.NoDup_cons in H as [Hn Hnd]. unfold of_type in *. cbn [omap list_omap]. case_decide as E; [|by apply IH].
    cbn [map fst]. apply list.NoDup_cons. split; [|by apply IH]. intros ([k n] & Ek & Hin)%elem_of_list_fmap. cbn in Ek.
    apply Hn. apply (elem_of_type t l) in Hin. rewrite Ek. by apply (elem_of_list_fmap_1 (λ e : entry, e.1.2)) in Hin.
  Qed.
  Lemma count_known t k : k ∉ map key missing →
    count_if (λ k', k' = k) (map key (known_of t xs)) = count_if (λ k', k' = (t, k)) (map (λ x, (ty x, key x)) xs).
  Proof using Heqb.
    intros Hk. unfold count_if. do 2 f_equal.
    assert (H : length (filter (λ k', k' = k) (map key (known_of t xs))) = length (filter (λ k', k' = (t, k)) (map (λ x, (ty x, key x)) xs))); [|by rewrite H].
    unfold known_of, known. clear -Hk Heqb. induction xs as [|x l IH]; [done|]. cbn [map].
    rewrite (filter_cons _ x l), (filter_cons _ (ty x, key x)).
    destruct (decide (is_missing x = false)) as [E|E].
    - rewrite (filter_cons _ x). destruct (decide (ty x = t)) as [Et|Et].
      + cbn [map]. rewrite (filter_cons _ (key x)). destruct (decide (key x = k)) as [Ek|Ek].
        * rewrite decide_True by congruence. cbn [length]. by rewrite IH.
        * rewrite decide_False by congruence. exact IH.
      + rewrite decide_False by congruence. exact IH.
    - rewrite decide_False; [exact IH|]. intros [= _ Ek]. apply E. apply not_true_is_false. rewrite missing_key. by rewrite Ek.
  Qed.
  Lemma type_counts_known t :
    counts_exactly (filter (λ e, 0 < e.2) (of_type t zeroed)) (map key (known_of t xs)).
  Proof using Hhist Hfaith Heqb.
    split.
    - apply list.NoDup_filter. eapply NoDup_fmap_1, of_type_keys.
    - intros k n. rewrite elem_of_list_filter, elem_of_type, zeroed_in. cbn [snd].
      destruct (decide (k ∈ map key missing)) as [Hk|Hk].
      + split; [intros (? & [(? & _)|(_ & -> & _)]); [done|lia]|]. intros [Hn E]. exfalso.
        unfold count_if in E. destruct (filter (λ k', k' = k) (map key (known_of t xs))) as [|y l] eqn:El; [cbn in E; lia|].
        assert (H : y ∈ filter (λ k', k' = k) (map key (known_of t xs))) by (rewrite El; left).
        apply elem_of_list_filter in H as [-> (x & -> & Hx)%elem_of_list_fmap].
        apply elem_of_list_filter in Hx as [_ [_ Hx]%known_key]. done.
      + rewrite count_known, <- (proj2 Hhist) by done. split; [intros (? & [[_ ?]|[? _]]); done|].
        intros H. split; [by apply (proj2 Hhist) in H as [? _]|]. by left.
  Qed.
  Lemma tsum_known t : tsum t zeroed = zlen (known_of t xs).
  Proof using Hhist Hfaith Heqb.
    pose proof (counts_expand _ _ (type_counts_known t)) as Hp. apply Permutation_length in Hp. rewrite map_length in Hp. rewrite Hp.
    unfold tsum. assert (Hn : Forall (λ e : K * Z, 0 <= e.2) (of_type t zeroed)).
    { apply list.Forall_forall. intros [k n] H. apply elem_of_type, zeroed_in in H. cbn.
      destruct H as [[_ H]|(_ & -> & _)]; [|lia]. apply (proj2 Hhist) in H. lia. }
    clear -Hn. induction Hn as [|e l He Hl IH]; [done|]. cbn [map fold_right]. rewrite filter_cons. case_decide as E.
    - cbn [map concat]. rewrite app_length, replicate_length. lia.
    - lia.
  Qed.

  (** ** the statistic of the most frequent type *)
  Context (t : T) (Hdom : 0 < zlen (known_of t xs)) (Hstrict : ∀ t', t' ≠ t → zlen (known_of t' xs) < zlen (known_of t xs)).
  Lemma dominant : first_max (type_totals zeroed) = Some (t, zlen (known_of t xs)).
  Proof using Hhist Hfaith Heqb Hdom Hstrict.
    destruct (type_totals_spec zeroed) as [Hnd Hget].
    assert (Ht : t ∈ map (λ e : entry, e.1.1) zeroed).
    { destruct (of_type t zeroed) as [|[k n] l] eqn:El.
      - pose proof (tsum_known t) as E. unfold tsum in E. rewrite El in E. cbn in E. lia.
      - assert (H : (k, n) ∈ of_type t zeroed) by (rewrite El; left). apply elem_of_type in H.
        by apply (elem_of_list_fmap_1 (λ e : entry, e.1.1)) in H. }
    assert (Hin : (t, zlen (known_of t xs)) ∈ type_totals zeroed).
    { apply dget_Some; [done|]. by rewrite Hget, decide_True, tsum_known. }
    destruct (first_max_spec (type_totals zeroed)) as ([t' n'] & -> & Hb & Hmax).
    { intros E. rewrite E in Hin. by apply elem_of_nil in Hin. }
    specialize (Hmax _ Hin). cbn [snd] in Hmax. apply dget_Some in Hb; [|done]. rewrite Hget in Hb. case_decide; [|done].
    injection Hb as <-. rewrite tsum_known in *. destruct (decide (t' = t)) as [->|Hne]; [done|]. specialize (Hstrict t' Hne). lia.
  Qed.

  Context (num : K → Q) (Hnum : ∀ x y, x ∈ xs → y ∈ xs → ty x = t → ty y = t → (num (key x) == num (key y))%Q → key x = key y).
  Definition numbers : list Q := map (λ x, num (key x)) (known_of t xs).
  Context (Hleast : ∀ x, x ∈ xs → ty x = t → is_missing x = true → ∃ y, y ∈ known_of t xs ∧ (num (key y) < num (key x))%Q).
  Lemma statistic : ∃ s m, numeric_summary (map (λ e, (num e.1, e.2)) (of_type t zeroed)) = Ok s ∧
    (st_mean s == qmean numbers)%Q ∧ st_mode s = Some m ∧ m ∈ numbers ∧
    ∀ x, x ∈ numbers → (qcount x numbers <= qcount m numbers)%nat ∧ (qcount x numbers = qcount m numbers → (m <= x)%Q).
  Proof using All.
    set (vc := map (λ e, (num e.1, e.2)) (of_type t zeroed)).
    assert (Hne : of_type t zeroed ≠ []).
    { intros E. pose proof (tsum_known t) as Hs. unfold tsum in Hs. rewrite E in Hs. cbn in Hs. lia. }
    destruct (summary_zeros vc) as (s & s' & Hs & Hs' & Hmean & Hmode).
    { apply list.Forall_forall. intros e ([k n] & -> & H)%elem_of_list_fmap. apply elem_of_type, zeroed_in in H. cbn.
      destruct H as [[_ H]|(_ & -> & _)]; [|lia]. apply (proj2 Hhist) in H. lia. }
    { intros e ([k n] & -> & H)%elem_of_list_fmap. cbn [fst snd]. intros ->. apply elem_of_type, zeroed_in in H.
      destruct H as [[_ H]|(Hk & _ & n' & H)]; [apply (proj2 Hhist) in H; lia|].
      destruct (hist_in _ _ _ H) as (x & Hx & Hxt & <-). destruct (Hleast x Hx Hxt) as (y & Hy & Hlt); [by apply missing_key|].
      assert (Hyk : key y ∈ map key (known_of t xs)) by (by apply elem_of_list_fmap_1).
      rewrite (counts_expand _ _ (type_counts_known t)) in Hyk. apply elem_of_list_In, in_concat in Hyk as (r & Hr & Hyk).
      apply in_map_iff in Hr as ([k m] & <- & Hkm). apply elem_of_list_In in Hkm, Hyk. apply elem_of_replicate in Hyk as [Ek _]. cbn in Ek. subst k.
      apply elem_of_list_filter in Hkm as [Hm Hkm]. exists (num (key y), m). split; [|done]. apply elem_of_list_fmap. by exists (key y, m). }
    { intros E. apply Hne. by apply map_eq_nil in E. }
    assert (Hp : filter pos (py_sort vc_leb vc) ≡ₚ map (λ e, (num e.1, e.2)) (filter (λ e, 0 < e.2) (of_type t zeroed))).
    { rewrite py_sort_perm. subst vc. clear. induction (of_type t zeroed) as [|e l IH]; [done|]. cbn [map]. rewrite !filter_cons.
      unfold pos at 1. cbn [snd]. destruct (decide (0 < e.2)); [cbn [map]; by apply Permutation_cons|done]. }
    assert (Hx : numbers ≡ₚ concat (map (λ e, replicate (Z.to_nat e.2) e.1) (filter pos (py_sort vc_leb vc)))).
    { unfold numbers. rewrite <- (map_map key num), (counts_expand _ _ (type_counts_known t)), Hp. clear.
      induction (filter _ (of_type t zeroed)) as [|e l IH]; [done|]. cbn [map concat]. rewrite map_app, IH. apply Permutation_app; [|done].
      cbn [fst snd]. by rewrite <- (fmap_replicate num). }
    destruct (numeric_summary_spec (filter pos (py_sort vc_leb vc)) numbers) as (s2 & m & d & E2 & _ & _ & _ & Hm2 & _ & _ & Hmo & Hin & Hmax).
    { intros E. rewrite E in Hx. apply Permutation_nil_r in Hx. unfold numbers in Hx. apply map_eq_nil in Hx. rewrite Hx in Hdom. cbn in Hdom. lia. }
    { apply list.Forall_forall. by intros e [? _]%elem_of_list_filter. }
    { exact Hx. }
    rewrite E2 in Hs'. injection Hs' as ->.
    exists s, m. split; [done|]. split; [by rewrite Hmean|]. split; [congruence|]. split; [done|]. apply Hmax.
    change (distinct (filter pos (py_sort vc_leb vc))).
    apply (distinct_perm _ _ (symmetry Hp)). intros i j a b Hij Ha Hb E.
    rewrite list_lookup_fmap in Ha, Hb. 
    destruct (filter _ (of_type t zeroed) !! i) as [[k n]|] eqn:Ei; [|done]. destruct (filter _ (of_type t zeroed) !! j) as [[k' n']|] eqn:Ej; [|done].
    injection Ha as <-. injection Hb as <-. cbn [fst] in E.
    assert (Hof : ∀ i k n, filter (λ e : K * Z, 0 < e.2) (of_type t zeroed) !! i = Some (k, n) → ∃ x, x ∈ xs ∧ ty x = t ∧ key x = k).
    { intros i' k0 n0 [_ H]%elem_of_list_lookup_2%elem_of_list_filter. apply elem_of_type, zeroed_in in H.
      destruct H as [[_ H]|(_ & _ & n1 & H)]; by apply hist_in in H. }
    destruct (Hof _ _ _ Ei) as (x1 & Hx1 & Ht1 & <-). destruct (Hof _ _ _ Ej) as (x2 & Hx2 & Ht2 & <-).
    apply Hnum in E; [|done..]. rewrite <- E in Ej. apply Hij.
    assert (Hnk : NoDup (map fst (filter (λ e : K * Z, 0 < e.2) (of_type t zeroed)))).
    { apply filter_keys_NoDup, of_type_keys. }
    eapply NoDup_lookup; [exact Hnk| |]; rewrite list_lookup_fmap; [by rewrite Ei|by rewrite Ej].
  Qed.
End value.
