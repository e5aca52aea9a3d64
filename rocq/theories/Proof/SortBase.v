(** Comparison functions, sorting and ranks. *)
From Verif.Spec Require Import SortOrder PySort.
From Verif.Model Require Import Sort.
From Verif.Proof Require Import DictLemmas StatsProofs.
Local Open Scope Z_scope.

Record cmp_ok {A} (cmp : A → A → comparison) : Prop := {
  cmp_refl : ∀ a, cmp a a = Eq;
  cmp_opp : ∀ a b, cmp b a = CompOpp (cmp a b);
  cmp_trans : ∀ a b c, cmp a b ≠ Gt → cmp b c ≠ Gt → cmp a c ≠ Gt }.

Section ok.
  Context {A : Type} (cmp : A → A → comparison) (H : cmp_ok cmp).
  Lemma cmp_Eq_sym a b : cmp a b = Eq → cmp b a = Eq.
  Proof using H. intros E. by rewrite (cmp_opp _ H), E. Qed.
  Lemma cmp_Eq_l a b c : cmp a b = Eq → cmp a c = cmp b c.
  Proof using H.
    intros E. pose proof (cmp_Eq_sym _ _ E) as E'.
    pose proof (cmp_trans _ H a b c) as T1. pose proof (cmp_trans _ H b a c) as T2.
    pose proof (cmp_trans _ H c a b) as T3. pose proof (cmp_trans _ H c b a) as T4.
    rewrite E in T1, T3. rewrite E' in T2, T4.
    rewrite (cmp_opp _ H a c), (cmp_opp _ H b c) in T3, T4.
    destruct (cmp a c), (cmp b c); simpl in *; try done; exfalso;
      first [by apply T1|by apply T2|by apply T3|by apply T4].
  Qed.
  Lemma cmp_Eq_r a b c : cmp a b = Eq → cmp c a = cmp c b.
  Proof using H. intros E. rewrite (cmp_opp _ H a c), (cmp_opp _ H b c). f_equal. by apply cmp_Eq_l. Qed.

  Lemma cmp_map {B} (f : B → A) : cmp_ok (λ a b, cmp (f a) (f b)).
  Proof using H.
    split.
    - intros. apply (cmp_refl _ H).
    - intros. apply (cmp_opp _ H).
    - intros a b c. apply (cmp_trans _ H).
  Qed.
  Lemma cmp_dir rev : cmp_ok (dir_cmp rev cmp).
  Proof using H.
    unfold dir_cmp. destruct rev; [|done]. split.
    - intros. by rewrite (cmp_refl _ H).
    - intros a b. f_equal. apply (cmp_opp _ H).
    - intros a b c. rewrite <-!(cmp_opp _ H). intros H1 H2. by apply (cmp_trans _ H c b a).
  Qed.
  Lemma cmp_leb_total a b : leb_of cmp a b = false → leb_of cmp b a = true.
  Proof using H. unfold leb_of. rewrite (cmp_opp _ H a b). by destruct (cmp a b). Qed.
  Lemma cmp_leb_trans a b c : leb_of cmp a b = true → leb_of cmp b c = true → leb_of cmp a c = true.
  Proof using H.
    unfold leb_of. intros H1 H2. pose proof (cmp_trans _ H a b c) as HT.
    destruct (cmp a b), (cmp b c), (cmp a c); try done; exfalso; by apply HT.
  Qed.
  Lemma cmp_sorted l : StronglySorted (λ a b, cmp a b ≠ Gt) (py_sort (leb_of cmp) l).
  Proof using H.
    pose proof (py_sort_sorted (leb_of cmp) cmp_leb_total cmp_leb_trans l) as HS.
    induction HS as [|x k Hk IH Hx]; [constructor|]. constructor; [done|].
    eapply list.Forall_impl; [exact Hx|]. intros y. cbn beta. unfold leb_of. by destruct (cmp x y).
  Qed.
End ok.

Lemma cmp_then {A} (c d : A → A → comparison) :
  cmp_ok c → cmp_ok d → cmp_ok (λ a b, thenc (c a b) (d a b)).
Proof.
  intros Hc Hd. split.
  - intros a. by rewrite (cmp_refl _ Hc), (cmp_refl _ Hd).
  - intros a b. rewrite (cmp_opp _ Hc a b), (cmp_opp _ Hd a b). by destruct (c a b).
  - intros x y z. destruct (c x y) eqn:E.
    + rewrite (cmp_Eq_l _ Hc _ _ z E). destruct (c y z); simpl; [apply (cmp_trans _ Hd)|done|done].
    + destruct (c y z) eqn:E'; simpl.
      * rewrite <-(cmp_Eq_r _ Hc _ _ x E'), E. done.
      * intros _ _. pose proof (cmp_trans _ Hc x y z) as HT. rewrite E, E' in HT.
        destruct (c x z) eqn:E2; simpl; [|done|by apply HT].
        exfalso. apply (cmp_Eq_sym _ Hc) in E2. pose proof (cmp_Eq_l _ Hc _ _ y E2) as E3.
        rewrite E, (cmp_opp _ Hc y z), E' in E3. done.
      * done.
    + done.
Qed.

Lemma Zcmp_ok : cmp_ok Z.compare.
Proof.
  split.
  - apply Z.compare_refl.
  - intros. apply Z.compare_antisym.
  - intros a b c H1 H2. change (a <= b) in H1. change (b <= c) in H2. change (a <= c). lia.
Qed.
Lemma Ncmp_ok : cmp_ok Nat.compare.
Proof.
  split.
  - apply Nat.compare_refl.
  - intros. apply Nat.compare_antisym.
  - intros a b c H1 H2. apply Nat.compare_le_iff in H1, H2. apply Nat.compare_le_iff. lia.
Qed.
Lemma Qccmp_ok : cmp_ok Qccompare.
Proof.
  split.
  - intros a. by apply Qceq_alt.
  - intros a b. unfold Qccompare. symmetry. apply Qcompare_antisym.
  - intros a b c H1 H2. apply (proj1 (Qcle_alt a c)). apply (Qcle_trans a b c); by apply Qcle_alt.
Qed.
Lemma listcmp_ok : cmp_ok list_cmp.
Proof.
  split.
  - induction a as [|x a IH]; simpl; [done|]. by rewrite Z.compare_refl.
  - induction a as [|x a IH]; intros [|y b]; simpl; try done.
    rewrite (Z.compare_antisym x y), IH. by destruct (x ?= y).
  - intros a b. revert a. induction b as [|y b IH]; intros [|x a] [|z c]; simpl; try done.
    destruct (Z.compare_spec x y), (Z.compare_spec y z); simpl; try done; subst; intros H1 H2.
    + rewrite Z.compare_refl. by apply IH.
    + assert (y ?= z = Lt) as -> by (by apply Z.compare_lt_iff). done.
    + assert (x ?= z = Lt) as -> by (by apply Z.compare_lt_iff). done.
    + assert (x ?= z = Lt) as -> by (apply Z.compare_lt_iff; lia). done.
Qed.
Lemma listcmp_Eq l k : list_cmp l k = Eq → l = k.
Proof.
  revert k. induction l as [|x l IH]; intros [|y k]; simpl; try done.
  destruct (Z.compare_spec x y); simpl; try done. intros Heq%IH. by subst.
Qed.

(** ** sorting only looks at the elements *)
Lemma py_insert_map {A B} (f : A → B) leb leb' x (l : list A) :
  (∀ y, y ∈ l → leb (f x) (f y) = leb' x y) → py_insert leb (f x) (map f l) = map f (py_insert leb' x l).
Proof.
  induction l as [|y l IH]; simpl; intros H; [done|].
  rewrite H by (by left). destruct (leb' x y); [done|]. simpl. f_equal. apply IH. intros z Hz. apply H. by right.
Qed.
Lemma py_sort_map {A B} (f : A → B) leb leb' (l : list A) :
  (∀ x y, x ∈ l → y ∈ l → leb (f x) (f y) = leb' x y) → py_sort leb (map f l) = map f (py_sort leb' l).
Proof.
  unfold py_sort. induction l as [|x l IH]; cbn [fold_right map]; intros H; [done|].
  rewrite IH by (intros; apply H; by right). apply py_insert_map.
  intros y Hy. apply H; [by left|]. right. change (y ∈ py_sort leb' l) in Hy. by rewrite py_sort_perm in Hy.
Qed.
Lemma py_sort_ext {A} leb leb' (l : list A) :
  (∀ x y, x ∈ l → y ∈ l → leb x y = leb' x y) → py_sort leb l = py_sort leb' l.
Proof. intros H. pose proof (py_sort_map id leb leb' l H) as E. by rewrite !map_id in E. Qed.

(** ** ranks *)
Lemma enum_fold {A K} `{EqDecision K} (key : A → K) (L : list A) (s : Z) (d : list (K * Z)) k :
  let r := dget (fold_left (λ d p, dset d (key p.2) p.1) (zip (seqZ s (zlen L)) L) d) k in
  (r = dget d k ∧ k ∉ map key L) ∨
  ∃ i a, r = Some (s + Z.of_nat i) ∧ L !! i = Some a ∧ key a = k ∧
    ∀ j b, (i < j)%nat → L !! j = Some b → key b ≠ k.
Proof.
  revert s d. induction L as [|x L IH]; intros s d; cbv zeta.
  { left. split; [done|]. simpl. apply not_elem_of_nil. }
  assert (Hx : zlen (x :: L) = Z.succ (zlen L)) by (cbn [length]; lia).
  rewrite Hx. rewrite seqZ_cons by lia. rewrite Z.pred_succ.
  simpl zip. cbn [fold_left fst snd].
  destruct (IH (Z.succ s) (dset d (key x) s)) as [[Hr Hk]|(i & a & Hr & Ha & Hka & Hlast)].
  - cbv zeta in Hr. rewrite Hr, dget_dset. destruct (decide (k = key x)) as [->|Hne].
    + right. exists 0%nat, x. split; [f_equal; lia|]. split; [done|]. split; [done|].
      intros [|j] b Hj Hb Heq; [lia|]. apply Hk. simpl in Hb. rewrite <-Heq.
      apply elem_of_list_In, in_map, elem_of_list_In. by eapply elem_of_list_lookup_2.
    + left. split; [done|]. simpl. rewrite not_elem_of_cons. done.
  - right. exists (S i), a. cbv zeta in Hr. rewrite Hr. split; [f_equal; lia|]. split; [done|]. split; [done|].
    intros [|j] b Hj Hb; [lia|]. apply (Hlast j); [lia|done].
Qed.

Lemma enum_dict_get {A K} `{EqDecision K} (key : A → K) (L : list A) a :
  a ∈ L → ∃ i b, dget (enum_dict key L) (key a) = Some (Z.of_nat i) ∧ L !! i = Some b ∧ key b = key a ∧
    ∀ j c, (i < j)%nat → L !! j = Some c → key c ≠ key a.
Proof.
  intros Ha. destruct (enum_fold key L 0 [] (key a)) as [[_ Hn]|(i & b & Hr & Hb & Hk & Hl)].
  - exfalso. apply Hn, elem_of_list_In, in_map, elem_of_list_In. done.
  - exists i, b. split; [|done]. unfold enum_dict. cbv zeta in Hr. rewrite Hr. f_equal.
Qed.
Lemma enum_dict_None {A K} `{EqDecision K} (key : A → K) (L : list A) k :
  k ∉ map key L → dget (enum_dict key L) k = None.
Proof.
  intros Hk. destruct (enum_fold key L 0 [] k) as [[Hr _]|(i & b & Hr & Hb & <- & Hl)]; [done|].
  exfalso. apply Hk, elem_of_list_In, in_map, elem_of_list_In. by eapply elem_of_list_lookup_2.
Qed.

(** the rank of an element of a sorted list orders like the element *)
Lemma enum_dict_rank {A K} `{EqDecision K} (key : A → K) (cmp : A → A → comparison) (L : list A) :
  cmp_ok cmp → StronglySorted (λ a b, cmp a b ≠ Gt) L →
  (∀ a b, a ∈ L → b ∈ L → cmp a b = Eq ↔ key a = key b) →
  ∀ a b, a ∈ L → b ∈ L → ∃ ra rb, dget (enum_dict key L) (key a) = Some ra ∧
    dget (enum_dict key L) (key b) = Some rb ∧ (ra ?= rb) = cmp a b.
Proof.
  intros Hok Hs Hkey a b Ha Hb.
  destruct (enum_dict_get key L a Ha) as (i & a' & Hra & Hi & Hka & Hla).
  destruct (enum_dict_get key L b Hb) as (j & b' & Hrb & Hj & Hkb & Hlb).
  exists (Z.of_nat i), (Z.of_nat j). split; [done|]. split; [done|].
  assert (Ha' : a' ∈ L) by (by eapply elem_of_list_lookup_2).
  assert (Hb' : b' ∈ L) by (by eapply elem_of_list_lookup_2).
  assert (Hc : cmp a b = cmp a' b').
  { rewrite (cmp_Eq_l _ Hok a a' b) by (by apply Hkey). apply cmp_Eq_r; [done|]. by apply Hkey. }
  rewrite Hc. destruct (Z.compare_spec (Z.of_nat i) (Z.of_nat j)) as [E|E|E].
  - assert (i = j) as -> by lia. assert (a' = b') as -> by congruence. by rewrite (cmp_refl _ Hok).
  - pose proof (StronglySorted_lookup _ _ i j a' b' Hs ltac:(lia) Hi Hj) as Hle. cbn beta in Hle.
    destruct (cmp a' b') eqn:E'; [|done|done]. exfalso.
    apply Hkey in E'; [|done|done]. apply (Hla j b'); [lia|done|congruence].
  - pose proof (StronglySorted_lookup _ _ j i b' a' Hs ltac:(lia) Hj Hi) as Hle. cbn beta in Hle.
    rewrite (cmp_opp _ Hok a' b') in Hle. destruct (cmp a' b') eqn:E'; [|done|done]. exfalso.
    apply Hkey in E'; [|done|done]. apply (Hlb i a'); [lia|done|congruence].
Qed.

(** sorted blocks one after the other *)
Lemma sorted_app {A} (R : A → A → Prop) (l k : list A) :
  StronglySorted R l → StronglySorted R k → (∀ x y, x ∈ l → y ∈ k → R x y) → StronglySorted R (l ++ k).
Proof.
  induction 1 as [|x l Hl IH Hx]; intros Hk Hlk; [done|]. simpl. constructor.
  - apply IH; [done|]. intros. apply Hlk; [by right|done].
  - apply list.Forall_app. split; [done|]. apply list.Forall_forall. intros y Hy. apply Hlk; [by left|done].
Qed.
