(** C61 *)
From Verif.Spec Require Import Statistics PySort.
From Verif.Model Require Import Stats.
From Coq Require Import Lqa Qfield ZifyBool Sorted.
Local Open Scope Q_scope.

(** ** sorting *)
Section PySort.
  Context {A : Type} (leb : A → A → bool).

  Lemma py_insert_perm x l : py_insert leb x l ≡ₚ x :: l.
  Proof.
    induction l as [|y l IH]; cbn [py_insert]; [done|]. destruct (leb x y); [done|].
    rewrite IH. apply Permutation_swap.
  Qed.
  Lemma py_sort_perm l : py_sort leb l ≡ₚ l.
  Proof.
    unfold py_sort. induction l as [|x l IH]; cbn [fold_right]; [done|].
    rewrite py_insert_perm. by rewrite IH.
  Qed.

  Hypothesis leb_total : ∀ x y, leb x y = false → leb y x = true.
  Hypothesis leb_trans : ∀ x y z, leb x y = true → leb y z = true → leb x z = true.

  Lemma py_insert_sorted x l :
    StronglySorted (λ a b, leb a b = true) l → StronglySorted (λ a b, leb a b = true) (py_insert leb x l).
  Proof.
    induction 1 as [|y l Hl IH Hy]; cbn [py_insert]; [repeat constructor|].
    destruct (leb x y) eqn:E.
    - constructor; [by constructor|]. constructor; [done|].
      eapply list.Forall_impl; [exact Hy|]. intros z Hz. cbn beta in *. by eapply leb_trans.
    - constructor; [done|]. apply list.Forall_forall. intros z Hz. rewrite py_insert_perm in Hz.
      apply elem_of_cons in Hz as [->|Hz]; [by apply leb_total|].
      exact (proj1 (list.Forall_forall _ _) Hy z Hz).
  Qed.

  Lemma py_sort_sorted l : StronglySorted (λ a b, leb a b = true) (py_sort leb l).
  Proof.
    unfold py_sort. induction l as [|x l IH]; cbn [fold_right]; [constructor|].
    by apply py_insert_sorted.
  Qed.
End PySort.

Lemma StronglySorted_lookup {A} (R : A → A → Prop) l i j a b :
  StronglySorted R l → (i < j)%nat → l !! i = Some a → l !! j = Some b → R a b.
Proof.
  intros Hs. revert i j. induction Hs as [|x l Hl IH Hx]; intros i j Hij Hi Hj; [done|].
  destruct j as [|j]; [lia|]. simpl in Hj. destruct i as [|i]; simpl in Hi.
  - injection Hi as <-. apply (proj1 (list.Forall_forall _ _) Hx). by eapply elem_of_list_lookup_2.
  - eapply (IH i j); eauto. lia.
Qed.

Lemma vc_leb_total x y : vc_leb x y = false → vc_leb y x = true.
Proof.
  unfold vc_leb. destruct (Qeq_bool x.1 y.1) eqn:E.
  - apply Qeq_bool_iff in E. assert (Qeq_bool y.1 x.1 = true) as -> by (apply Qeq_bool_iff; lra). lia.
  - intros H. destruct (Qeq_bool y.1 x.1) eqn:E'.
    + apply Qeq_bool_iff in E'. assert (Qeq_bool x.1 y.1 = true) by (apply Qeq_bool_iff; lra). congruence.
    + apply Qle_bool_iff. destruct (Qlt_le_dec x.1 y.1) as [Hl|Hl]; [|done].
      assert (Qle_bool x.1 y.1 = true) by (apply Qle_bool_iff; lra). congruence.
Qed.

Lemma vc_leb_spec x y :
  vc_leb x y = true ↔ x.1 < y.1 ∨ (x.1 == y.1 ∧ (x.2 <= y.2)%Z).
Proof.
  unfold vc_leb. destruct (Qeq_bool x.1 y.1) eqn:E.
  - apply Qeq_bool_iff in E. rewrite Z.leb_le. split; [auto|]. intros [?|[? ?]]; [lra|done].
  - assert (~ x.1 == y.1) as Hn by (intros H%Qeq_bool_iff; congruence).
    rewrite Qle_bool_iff. split.
    + intros H. left. apply Qle_lteq in H as [?|?]; [done|by destruct Hn].
    + intros [?|[? ?]]; [lra|by destruct Hn].
Qed.

Lemma vc_leb_trans x y z : vc_leb x y = true → vc_leb y z = true → vc_leb x z = true.
Proof.
  rewrite !vc_leb_spec. intros [?|[? ?]] [?|[? ?]]; [left; lra|left; lra|left; lra|right; split; [lra|lia]].
Qed.

(** ** the expanded list of values *)
Definition expand (vc : list (Q * Z)) : list Q :=
  concat (map (λ e, replicate (Z.to_nat e.2) e.1) vc).

Definition total (vc : list (Q * Z)) : Z := fold_right Z.add 0%Z (map snd vc).

Lemma total_app a b : total (a ++ b) = (total a + total b)%Z.
Proof. unfold total. induction a as [|x a IH]; simpl in *; lia. Qed.

Lemma total_perm a b : a ≡ₚ b → total a = total b.
Proof. induction 1; unfold total in *; simpl in *; lia. Qed.

Lemma total_nonneg vc : Forall (λ e, 0 < e.2)%Z vc → (0 <= total vc)%Z.
Proof. induction 1 as [|x l Hx Hl IH]; unfold total in *; simpl in *; lia. Qed.

Lemma expand_app a b : expand (a ++ b) = expand a ++ expand b.
Proof. unfold expand. by rewrite map_app, concat_app. Qed.

Lemma expand_perm a b : a ≡ₚ b → expand a ≡ₚ expand b.
Proof.
  induction 1 as [|x a b H IH|x y l|? ? ? ? ? ? ?]; unfold expand in *; simpl in *.
  - done.
  - by rewrite IH.
  - rewrite !app_assoc. by rewrite (Permutation_app_comm (replicate (Z.to_nat y.2) y.1)).
  - by etrans.
Qed.

Lemma expand_length vc : Forall (λ e, 0 < e.2)%Z vc → Z.of_nat (length (expand vc)) = total vc.
Proof.
  induction 1 as [|x l Hx Hl IH]; [done|]. unfold expand, total in *. simpl.
  rewrite app_length, replicate_length, Nat2Z.inj_add, IH. lia.
Qed.

Lemma qsum_app a b : qsum (a ++ b) == qsum a + qsum b.
Proof. unfold qsum. induction a as [|x a IH]; simpl; [ring|]. rewrite IH. ring. Qed.

Lemma qsum_perm a b : a ≡ₚ b → qsum a == qsum b.
Proof.
  induction 1 as [|x a b H IH|x y l|a b c H1 IH1 H2 IH2]; unfold qsum in *; simpl in *.
  - ring. - by rewrite IH. - ring. - by rewrite IH1.
Qed.

Lemma qsum_replicate n v : qsum (replicate n v) == inject_Z (Z.of_nat n) * v.
Proof.
  unfold qsum. induction n as [|n IH]; simpl replicate; simpl fold_right.
  - change (inject_Z (Z.of_nat 0)) with 0. ring.
  - rewrite IH, Nat2Z.inj_succ. unfold Z.succ. rewrite inject_Z_plus. change (inject_Z 1) with 1. ring.
Qed.

(** sums over the compressed list *)
Definition wsum (f : Q → Q) (vc : list (Q * Z)) : Q :=
  fold_right Qplus 0 (map (λ e, inject_Z e.2 * f e.1) vc).

Lemma wsum_snoc f vc e : wsum f (vc ++ [e]) == wsum f vc + inject_Z e.2 * f e.1.
Proof. unfold wsum. induction vc as [|x vc IH]; simpl in *; [ring|]. rewrite IH. ring. Qed.

Lemma wsum_expand f vc :
  Forall (λ e, 0 < e.2)%Z vc → wsum f vc == qsum (map f (expand vc)).
Proof.
  induction 1 as [|x l Hx Hl IH]; [reflexivity|]. unfold expand, wsum in *. simpl.
  rewrite map_app, qsum_app, <- IH.
  assert (map f (replicate (Z.to_nat x.2) x.1) = replicate (Z.to_nat x.2) (f x.1)) as ->.
  { clear. induction (Z.to_nat x.2); simpl; congruence. }
  rewrite qsum_replicate, Z2Nat.id by lia. ring.
Qed.

(** ** one pass *)
Definition acc_ok (t : Z) (all pre : list (Q * Z)) (s : stats_acc) : Prop :=
  let n := inject_Z (a_cnt s) in
  a_cnt s = total pre ∧
  a_total s == wsum (λ v, v) pre ∧
  a_mn s * n == wsum (λ v, v) pre ∧
  a_cstd s == wsum (λ v, v * v) pre - a_mn s * wsum (λ v, v) pre ∧
  a_prev s = fst <$> list.last pre ∧
  (* mode *)
  match a_mode s with
  | None => pre = [] ∧ a_maxcnt s = (-1)%Z
  | Some m => ∃ i e, pre !! i = Some e ∧ m = e.1 ∧ e.2 = a_maxcnt s ∧
      (∀ x, x ∈ pre → (x.2 <= a_maxcnt s)%Z) ∧
      (∀ j x, (j < i)%nat → pre !! j = Some x → (x.2 < a_maxcnt s)%Z)
  end ∧
  (* median *)
  ((t < 2 * total pre)%Z → ∃ m a b, a_median s = Some m ∧
      expand all !! ((length (expand all) - 1) / 2)%nat = Some a ∧
      expand all !! (length (expand all) / 2)%nat = Some b ∧ m == (a + b) / 2).

Lemma lookup_block pre v c post (i : nat) :
  Forall (λ e, 0 < e.2)%Z pre → (0 < c)%Z →
  (total pre <= Z.of_nat i < total pre + c)%Z →
  expand (pre ++ (v, c) :: post) !! i = Some v.
Proof.
  intros Hp Hc Hi. rewrite expand_app. pose proof (expand_length pre Hp) as Hl.
  rewrite lookup_app_r by lia. unfold expand at 2. cbn [map concat fst snd].
  rewrite lookup_app_l by (rewrite replicate_length; lia).
  apply lookup_replicate. split; [done|]. lia.
Qed.

Lemma half_lo (n : nat) t : Z.of_nat n = t → (1 <= t)%Z → Z.of_nat ((n - 1) / 2) = ((t - 1) / 2)%Z.
Proof. intros <- H. rewrite Nat2Z.inj_div. f_equal. lia. Qed.
Lemma half_hi (n : nat) t : Z.of_nat n = t → Z.of_nat (n / 2) = (t / 2)%Z.
Proof. intros <-. by rewrite Nat2Z.inj_div. Qed.

Lemma stats_step_ok t all pre v c post s :
  all = pre ++ (v, c) :: post → t = total all →
  Forall (λ e, 0 < e.2)%Z all → acc_ok t all pre s →
  ∃ s', stats_step t s (v, c) = Ok s' ∧ acc_ok t all (pre ++ [(v, c)]) s'.
Proof.
  intros Hall Ht Hpos (Hcnt & Htot & Hmn & Hcstd & Hprev & Hmode & Hmed).
  assert (Forall (λ e, 0 < e.2)%Z pre ∧ (0 < c)%Z ∧ Forall (λ e, 0 < e.2)%Z post) as (Hp1 & Hc & Hp2).
  { rewrite Hall in Hpos. apply list.Forall_app in Hpos as [? Hq].
    apply list.Forall_cons in Hq as [? ?]. done. }
  pose proof (total_nonneg pre Hp1) as Hn1. pose proof (total_nonneg post Hp2) as Hn2.
  assert (total all = total pre + c + total post)%Z as Htall.
  { rewrite Hall, total_app. unfold total at 2. simpl. unfold total. lia. }
  pose proof (expand_length all Hpos) as Hlen.
  pose proof (half_lo _ _ Hlen ltac:(lia)) as Hlo. pose proof (half_hi _ _ Hlen) as Hhi.
  assert (total (pre ++ [(v, c)]) = total pre + c)%Z as Htp.
  { rewrite total_app. unfold total at 2. simpl. lia. }
  assert (∀ median, 
    ((t < 2 * (total pre + c))%Z → ∃ m a b, median = Some m ∧
      expand all !! ((length (expand all) - 1) / 2)%nat = Some a ∧
      expand all !! (length (expand all) / 2)%nat = Some b ∧ m == (a + b) / 2) →
    ∀ mode maxc, (if (a_maxcnt s <? c)%Z then (Some v, c) else (a_mode s, a_maxcnt s)) = (mode, maxc) →
    acc_ok t all (pre ++ [(v, c)])
     (Acc (a_cnt s + c) median (a_mn s + inject_Z c * (v - a_mn s) / inject_Z (a_cnt s + c))
      (a_cstd s + inject_Z c * (v - a_mn s)
        * (v - (a_mn s + inject_Z c * (v - a_mn s) / inject_Z (a_cnt s + c))))
      mode maxc (a_total s + v * inject_Z c) (Some v))) as Hbuild.
  { intros median Hm mode maxc Hmm. unfold acc_ok.
    cbn [a_cnt a_median a_mn a_cstd a_mode a_maxcnt a_total a_prev].
    set (n := a_cnt s) in *.
    assert (0 < inject_Z (n + c)) as Hnc.
    { change 0 with (inject_Z 0). rewrite <- Zlt_Qlt. lia. }
    set (S := wsum (λ v, v) pre) in *. set (Q2 := wsum (λ v, v * v) pre) in *.
    set (mn' := a_mn s + inject_Z c * (v - a_mn s) / inject_Z (n + c)).
    assert (mn' * inject_Z (n + c) == S + inject_Z c * v) as Hmn'.
    { subst mn'. rewrite inject_Z_plus in *. rewrite <- Hmn. field. lra. }
    split_and!.
    - lia.
    - rewrite wsum_snoc. fold S. cbn [fst snd]. rewrite Htot. ring.
    - rewrite wsum_snoc. fold S. cbn [fst snd]. exact Hmn'.
    - rewrite !wsum_snoc. fold S Q2. cbn [fst snd]. rewrite Hcstd.
      rewrite inject_Z_plus in Hmn'.
      assert (a_mn s * (mn' * (inject_Z n + inject_Z c) - (a_mn s * inject_Z n + inject_Z c * v)) == 0) as Hz.
      { rewrite Hmn', Hmn. ring. }
      rewrite <- Hmn.
      transitivity (Q2 + inject_Z c * (v * v) - mn' * (a_mn s * inject_Z n + inject_Z c * v)
         + a_mn s * (mn' * (inject_Z n + inject_Z c) - (a_mn s * inject_Z n + inject_Z c * v))); [ring|].
      rewrite Hz. ring.
    - by rewrite last_snoc.
    - destruct (a_maxcnt s <? c)%Z eqn:E; injection Hmm as <- <-.
      + exists (length pre), (v, c). split_and!.
        * by rewrite lookup_app_r, Nat.sub_diag by lia.
        * done. * done.
        * intros x [Hx| ->%elem_of_list_singleton]%elem_of_app; [|simpl; lia].
          destruct (a_mode s) as [m|].
          -- destruct Hmode as (i & e & _ & _ & _ & Hmax & _). pose proof (Hmax x Hx). lia.
          -- destruct Hmode as [-> _]. by apply elem_of_nil in Hx.
        * intros j x Hj Hx. rewrite lookup_app_l in Hx by lia.
          destruct (a_mode s) as [m|].
          -- destruct Hmode as (i & e & _ & _ & _ & Hmax & _).
             pose proof (Hmax x (elem_of_list_lookup_2 _ _ _ Hx)). lia.
          -- destruct Hmode as [-> _]. done.
      + destruct (a_mode s) as [m|].
        * destruct Hmode as (i & e & He & -> & Hec & Hmax & Hfirst).
          exists i, e. apply lookup_lt_Some in He as Hlt. split_and!.
          -- by rewrite lookup_app_l by lia.
          -- done. -- done.
          -- intros x [Hx| ->%elem_of_list_singleton]%elem_of_app; [by apply Hmax|simpl; lia].
          -- intros j x Hj Hx. rewrite lookup_app_l in Hx by lia. by eapply Hfirst.
        * destruct Hmode as [_ ?]. lia.
    - rewrite Htp. exact Hm. }
  unfold stats_step.
  destruct (if (a_maxcnt s <? c)%Z then (Some v, c) else (a_mode s, a_maxcnt s)) as [mode maxc] eqn:Emode.
  rewrite Hcnt in *.
  assert ((total pre + c =? 0)%Z = false) as -> by lia.
  destruct ((2 * total pre <? t)%Z && (t <? 2 * (total pre + c))%Z) eqn:E1.
  { eexists. split; [reflexivity|]. apply Hbuild; [|done]. intros _.
    exists v, v, v. split; [done|].
    set (i := (length (expand all) / 2)%nat) in *. set (j := ((length (expand all) - 1) / 2)%nat) in *.
    rewrite Hall.
    split; [|split; [|field]]; apply lookup_block; try done; rewrite ?Hlo, ?Hhi; Z.div_mod_to_equations; lia. }
  destruct (2 * total pre =? t)%Z eqn:E2.
  - rewrite Hprev. destruct (list.last pre) as [[v0 c0]|] eqn:El.
    2:{ apply last_None in El. subst pre. change (total []) with 0%Z in *. lia. }
    apply last_Some in El as [pre' ->].
    cbn [fmap option_fmap option_map fst]. eexists. split; [reflexivity|].
    apply Hbuild; [|done]. intros Hlt.
    assert ((2 * (t - 1)) mod 4 = 2)%Z as ->.
    { Z.div_mod_to_equations; lia. }
    exists ((v0 * inject_Z (4 - 2) + v * inject_Z 2) / 4), v0, v. split; [done|].
    apply list.Forall_app in Hp1 as [Hp1' Hq]. apply list.Forall_cons in Hq as [Hc0 _]. simpl in Hc0.
    assert (total (pre' ++ [(v0, c0)]) = total pre' + c0)%Z as Htp'.
    { rewrite total_app. unfold total at 2. simpl. lia. }
    split; [|split].
    + set (i := ((length (expand all) - 1) / 2)%nat) in *. rewrite Hall. rewrite <- app_assoc. simpl.
      apply lookup_block; try done. rewrite Hlo. Z.div_mod_to_equations; lia.
    + set (i := (length (expand all) / 2)%nat) in *. rewrite Hall. apply lookup_block; try done.
      2:{ rewrite Hhi. Z.div_mod_to_equations; lia. }
      apply list.Forall_app. split; [done|]. by repeat constructor.
    + change (inject_Z (4 - 2)) with 2. change (inject_Z 2) with 2. field.
  - eexists. split; [reflexivity|]. apply Hbuild; [|done]. intros Hlt. apply Hmed. lia.
Qed.

Lemma stats_loop t all rest pre s :
  all = pre ++ rest → t = total all → Forall (λ e, 0 < e.2)%Z all → acc_ok t all pre s →
  ∃ s', fold_left (λ acc e, res_bind acc (λ s, stats_step t s e)) rest (Ok s) = Ok s' ∧
        acc_ok t all all s'.
Proof.
  revert pre s. induction rest as [|[v c] rest IH]; intros pre s Hall Ht Hpos Hok.
  { exists s. split; [done|]. rewrite app_nil_r in Hall. by subst. }
  destruct (stats_step_ok t all pre v c rest s Hall Ht Hpos Hok) as (s' & Hs & Hok').
  cbn [fold_left res_bind]. rewrite Hs. apply (IH (pre ++ [(v, c)])); try done.
  by rewrite <- app_assoc.
Qed.

(** ** counting *)
Lemma qcount_app x a b : qcount x (a ++ b) = (qcount x a + qcount x b)%nat.
Proof. unfold qcount. by rewrite List.filter_app, app_length. Qed.

Lemma qcount_perm x a b : a ≡ₚ b → qcount x a = qcount x b.
Proof.
  unfold qcount. induction 1 as [|y a b H IH|y z l|? ? ? ? ? ? ?]; simpl.
  - done.
  - destruct (Qeq_bool x y); simpl; lia.
  - destruct (Qeq_bool x y), (Qeq_bool x z); simpl; lia.
  - lia.
Qed.

Lemma qcount_replicate x n v : qcount x (replicate n v) = if Qeq_bool x v then n else 0%nat.
Proof.
  unfold qcount. induction n as [|n IH]; simpl; [by destruct (Qeq_bool x v)|].
  destruct (Qeq_bool x v) eqn:E; simpl; lia.
Qed.

Definition distinct (vc : list (Q * Z)) : Prop :=
  ∀ i j a b, i ≠ j → vc !! i = Some a → vc !! j = Some b → ~ a.1 == b.1.

Lemma distinct_cons e vc : distinct (e :: vc) → distinct vc ∧ ∀ x, x ∈ vc → ~ e.1 == x.1.
Proof.
  intros H. split.
  - intros i j a b Hij Ha Hb. apply (H (S i) (S j)); auto.
  - intros x [j Hj]%elem_of_list_lookup. by apply (H 0%nat (S j)).
Qed.

Lemma qcount_none x vc : (∀ e, e ∈ vc → ~ x == e.1) → qcount x (expand vc) = 0%nat.
Proof.
  induction vc as [|e vc IH]; intros H; [done|].
  unfold expand. cbn [map concat]. rewrite qcount_app, qcount_replicate.
  assert (Qeq_bool x e.1 = false) as ->.
  { destruct (Qeq_bool x e.1) eqn:E; [|done]. apply Qeq_bool_iff in E. exfalso. apply (H e); [left|done]. }
  simpl. apply IH. intros y Hy. apply H. by right.
Qed.

Lemma qcount_distinct vc x e :
  distinct vc → e ∈ vc → x == e.1 → qcount x (expand vc) = Z.to_nat e.2.
Proof.
  induction vc as [|y vc IH]; intros Hd He Hx; [by apply elem_of_nil in He|].
  apply distinct_cons in Hd as [Hd Hy].
  unfold expand. cbn [map concat]. rewrite qcount_app, qcount_replicate.
  apply elem_of_cons in He as [->|He].
  - assert (Qeq_bool x y.1 = true) as -> by (by apply Qeq_bool_iff).
    fold (expand vc). rewrite (qcount_none x vc); [lia|]. intros z Hz Hxz. apply (Hy z Hz). by rewrite <- Hx, Hxz.
  - assert (Qeq_bool x y.1 = false) as ->.
    { destruct (Qeq_bool x y.1) eqn:E; [|done]. apply Qeq_bool_iff in E. exfalso. apply (Hy e He).
      by rewrite <- Hx, <- E. }
    by apply IH.
Qed.

Lemma elem_of_expand x vc :
  Forall (λ e, 0 < e.2)%Z vc → x ∈ expand vc ↔ ∃ e, e ∈ vc ∧ e.1 = x.
Proof.
  induction 1 as [|e l He Hl IH]; unfold expand in *; cbn [map concat].
  { split; [intros H; by apply elem_of_nil in H|]. intros (e & He & _). by apply elem_of_nil in He. }
  rewrite elem_of_app, elem_of_replicate, IH. setoid_rewrite elem_of_cons.
  split.
  - intros [[-> _]|(y & Hy & <-)]; [exists e|exists y]; auto.
  - intros (y & [->|Hy] & <-); [left; split; [done|lia]|right; eauto].
Qed.

Lemma distinct_perm a b : a ≡ₚ b → distinct a → distinct b.
Proof.
  intros Hp Hd i j x y Hij Hi Hj. symmetry in Hp.
  apply Permutation_inj in Hp as [Hlen (f & Hinj & Hf)].
  apply (Hd (f i) (f j) x y).
  - intros He. by apply Hij, Hinj.
  - by rewrite <- Hf. - by rewrite <- Hf.
Qed.

Lemma expand_sorted vc :
  StronglySorted (λ a b, vc_leb a b = true) vc → qsorted (expand vc).
Proof.
  induction 1 as [|e l Hl IH He]; unfold expand in *; cbn [map concat].
  { intros i j a b _ Hi. done. }
  intros i j a b Hij Hi Hj.
  destruct (decide (j < Z.to_nat e.2)%nat) as [Hjl|Hjl].
  { rewrite lookup_app_l in Hi by (rewrite replicate_length; lia).
    rewrite lookup_app_l in Hj by (rewrite replicate_length; lia).
    apply lookup_replicate in Hi as [-> _]. apply lookup_replicate in Hj as [-> _]. apply Qle_refl. }
  rewrite lookup_app_r in Hj by (rewrite replicate_length; lia). rewrite replicate_length in Hj.
  destruct (decide (i < Z.to_nat e.2)%nat) as [Hil|Hil].
  - rewrite lookup_app_l in Hi by (rewrite replicate_length; lia).
    apply lookup_replicate in Hi as [-> _].
    apply elem_of_list_lookup_2 in Hj. apply elem_of_list_In, in_concat in Hj as (bs & Hbs & Hb).
    apply in_map_iff in Hbs as (y & <- & Hy). apply elem_of_list_In in Hy, Hb.
    apply elem_of_replicate in Hb as [-> _].
    pose proof (proj1 (list.Forall_forall _ _) He y Hy) as Hle. cbn beta in Hle.
    apply vc_leb_spec in Hle as [?|[Heq _]]; [by apply Qlt_le_weak|]. rewrite Heq. apply Qle_refl.
  - rewrite lookup_app_r in Hi by (rewrite replicate_length; lia). rewrite replicate_length in Hi.
    eapply (IH (i - Z.to_nat e.2)%nat (j - Z.to_nat e.2)%nat); eauto. lia.
Qed.

Lemma map_id_ext (l : list Q) : map (λ v, v) l = l.
Proof. induction l; simpl; congruence. Qed.

Lemma sq_dev (xs : list Q) m :
  qsum (map (λ x, (x - m) * (x - m)) xs)
  == qsum (map (λ x, x * x) xs) - 2 * m * qsum xs + qlen xs * m * m.
Proof.
  unfold qlen, qsum. induction xs as [|x xs IH]; simpl map; simpl fold_right.
  - simpl. change (inject_Z 0) with 0. ring.
  - rewrite IH. cbn [length]. rewrite Nat2Z.inj_succ. unfold Z.succ. rewrite inject_Z_plus.
    change (inject_Z 1) with 1. ring.
Qed.

Lemma numeric_summary_spec vc xs :
  vc ≠ [] → Forall (λ e, 0 < e.2)%Z vc →
  xs ≡ₚ concat (map (λ e, replicate (Z.to_nat e.2) e.1) vc) →
  ∃ s m d, numeric_summary vc = Ok s ∧
    (st_min s ∈ xs ∧ ∀ x, x ∈ xs → st_min s <= x) ∧
    (st_max s ∈ xs ∧ ∀ x, x ∈ xs → x <= st_max s) ∧
    st_sum s == qsum xs ∧
    st_mean s == qmean xs ∧
    st_var s == (if (1 <? length xs)%nat then qvar xs else 0) ∧
    (st_median s = Some d ∧ is_median d xs) ∧
    (st_mode s = Some m ∧ m ∈ xs ∧
     ((∀ i j a b, i ≠ j → vc !! i = Some a → vc !! j = Some b → ~ a.1 == b.1) →
      ∀ x, x ∈ xs → (qcount x xs <= qcount m xs)%nat ∧
                    (qcount x xs = qcount m xs → m <= x))).
Proof.
  intros Hne Hpos Hxs. fold (expand vc) in Hxs. unfold numeric_summary.
  set (VC := py_sort vc_leb vc).
  assert (VC ≡ₚ vc) as HVC by apply py_sort_perm.
  assert (StronglySorted (λ a b, vc_leb a b = true) VC) as Hsort.
  { apply py_sort_sorted; [apply vc_leb_total|apply vc_leb_trans]. }
  assert (Forall (λ e, 0 < e.2)%Z VC) as HposV by (by rewrite HVC).
  assert (xs ≡ₚ expand VC) as HxV.
  { rewrite Hxs. apply expand_perm. by symmetry. }
  fold (total vc). rewrite <- (total_perm _ _ HVC).
  assert (VC ≠ []) as HneV.
  { intros H. rewrite H in HVC. by apply Permutation_nil in HVC. }
  pose proof (expand_length VC HposV) as Hlen.
  assert (1 <= total VC)%Z as Ht.
  { destruct VC as [|e V]; [done|]. apply list.Forall_cons in HposV as [He HV].
    apply total_nonneg in HV. unfold total in *. simpl. lia. }
  destruct (stats_loop (total VC) VC VC [] (Acc 0 None 0 0 None (-1) 0 None)) as (s & Hs & Hok);
    [done|done|done| |].
  { split_and!; cbn; try done; try ring. lia. }
  destruct Hok as (Hcnt & Htot & Hmn & Hcstd & Hprev & Hmode & Hmed).
  destruct (Hmed ltac:(lia)) as (d & a & b & Hd & Ha & Hb & Hdab).
  destruct VC as [|first V] eqn:EV; [done|]. rewrite <- EV in *.
  destruct (list.last VC) as [lst|] eqn:El.
  2:{ apply last_None in El. congruence. }
  rewrite Hs. assert ((total VC <? 1)%Z = false) as -> by lia.
  destruct (a_mode s) as [m|] eqn:Em.
  2:{ destruct Hmode as [? _]. congruence. }
  destruct Hmode as (im & em & Hem & -> & Hmc & Hmax & Hfirst).
  pose proof (wsum_expand (λ v, v) VC HposV) as Hw1. rewrite map_id_ext in Hw1.
  pose proof (wsum_expand (λ v, v * v) VC HposV) as Hw2.
  assert (length xs = length (expand VC)) as Hlx by (by apply Permutation_length).
  assert (qlen xs == inject_Z (total VC)) as Hql.
  { unfold qlen. rewrite Hlx, Hlen. done. }
  assert (0 < inject_Z (total VC)) as Hpq.
  { change 0 with (inject_Z 0). rewrite <- Zlt_Qlt. lia. }
  assert (qsum xs == wsum (λ v, v) VC) as Hsum.
  { rewrite Hw1. by apply qsum_perm. }
  assert (VC !! 0%nat = Some first) as Hf0 by (by rewrite EV).
  assert (∀ i j x y, (i <= j)%nat → VC !! i = Some x → VC !! j = Some y → x.1 <= y.1) as Hord.
  { intros i j x y Hij Hi Hj. destruct (decide (i = j)) as [->|Hne'].
    - rewrite Hi in Hj. injection Hj as ->. apply Qle_refl.
    - eapply StronglySorted_lookup in Hsort; [|exact (ltac:(lia) : (i < j)%nat)|exact Hi|exact Hj].
      apply vc_leb_spec in Hsort as [?|[? _]]; lra. }
  eexists _, em.1, d. split; [reflexivity|].
  cbn [st_min st_max st_sum st_mean st_var st_median st_mode].
  assert (∀ x, x ∈ xs ↔ ∃ e, e ∈ VC ∧ e.1 = x) as Hin.
  { intros x. rewrite HxV. by apply elem_of_expand. }
  split_and!.
  - apply Hin. exists first. split; [|done]. by eapply elem_of_list_lookup_2.
  - intros x (e & He & <-)%Hin. apply elem_of_list_lookup in He as [i Hi].
    eapply (Hord 0%nat i); eauto. lia.
  - apply Hin. exists lst. split; [|done]. apply last_Some_elem_of in El. done.
  - intros x (e & He & <-)%Hin. apply elem_of_list_lookup in He as [i Hi].
    rewrite last_lookup in El. apply lookup_lt_Some in Hi as Hlt.
    eapply (Hord i); [|exact Hi|exact El]. lia.
  - by rewrite Htot, Hsum.
  - unfold qmean. by rewrite Htot, Hsum, Hql.
  - rewrite Hcnt. destruct (1 <? total VC)%Z eqn:E1.
    + assert ((1 <? length xs)%nat = true) as -> by (apply Nat.ltb_lt; lia).
      unfold qvar. rewrite sq_dev. unfold qmean.
      assert (qsum (map (λ x, x * x) xs) == wsum (λ v, v * v) VC) as ->.
      { rewrite Hw2. apply qsum_perm. by apply Permutation_map. }
      rewrite Hsum, Hql, Hcstd. rewrite Hcnt in Hmn.
      assert (a_mn s == wsum (λ v, v) VC / inject_Z (total VC)) as ->.
      { rewrite <- Hmn. field. lra. }
      unfold Zminus. rewrite inject_Z_plus. change (inject_Z (- (1))) with (-1).
      assert (1 < inject_Z (total VC)) as H1.
      { change 1 with (inject_Z 1). rewrite <- Zlt_Qlt. lia. }
      field. split; lra.
    + assert ((1 <? length xs)%nat = false) as -> by (apply Nat.ltb_ge; lia). reflexivity.
  - done.
  - exists (expand VC), a, b. split_and!; try done. by apply expand_sorted.
  - done.
  - apply Hin. exists em. split; [|done]. by eapply elem_of_list_lookup_2.
  - intros Hdis x (e & He & <-)%Hin.
    assert (distinct VC) as HdV.
    { eapply distinct_perm; [symmetry; exact HVC|exact Hdis]. }
    rewrite !(qcount_perm _ _ _ HxV).
    assert (em ∈ VC) as Hem' by (by eapply elem_of_list_lookup_2).
    rewrite (qcount_distinct VC e.1 e), (qcount_distinct VC em.1 em) by (done || reflexivity).
    pose proof (Hmax e He) as Hle.
    pose proof (proj1 (list.Forall_forall _ _) HposV e He) as Hp1.
    pose proof (proj1 (list.Forall_forall _ _) HposV em Hem') as Hp2. cbn beta in *.
    split; [lia|]. intros Heq. apply elem_of_list_lookup in He as [i Hi].
    destruct (decide (i < im)%nat) as [Hlt|Hge].
    + pose proof (Hfirst i e Hlt Hi). lia.
    + eapply (Hord im i); eauto. lia.
Qed.
