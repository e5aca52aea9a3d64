(** C43: sorting tables. *)
From Verif.Spec Require Import SortOrder PySort Rows.
From Verif.Model Require Import Sort.
From Verif.Proof Require Import DictLemmas StatsProofs TableBase TableProofs JoinBase JoinProofs JoinFinal SortBase SortRanks.
Local Open Scope Z_scope.

Lemma list_cmp_app (l k l' k' : list Z) :
  length l = length k → list_cmp (l ++ l') (k ++ k') = thenc (list_cmp l k) (list_cmp l' k').
Proof.
  revert k. induction l as [|x l IH]; intros [|y k]; simpl; try done. intros [= H].
  rewrite IH by done. by destruct (x ?= y).
Qed.
Lemma thenc_assoc a b c : thenc (thenc a b) c = thenc a (thenc b c).
Proof. by destruct a. Qed.

Lemma sorted_NoDup {A} (R S : A → A → Prop) l :
  StronglySorted R l → NoDup l → (∀ a b, a ∈ l → b ∈ l → R a b → a ≠ b → S a b) → StronglySorted S l.
Proof.
  induction 1 as [|x l Hl IH Hx]; intros Hnd H; [constructor|].
  apply list.NoDup_cons in Hnd as [Hxl Hnd]. constructor.
  - apply IH; [done|]. intros. apply H; try done; by right.
  - apply list.Forall_forall. intros y Hy. apply H; [by left|by right| |].
    + exact (proj1 (list.Forall_forall _ _) Hx y Hy).
    + by intros ->.
Qed.

Section sort.
  Context (coll : string → list Z) (pystr : pyval → string).
  Context {T : Type} `{EqDecision T} (ty : pyval → T) (ps : Z) (ps_pos : 0 < ps).
  Notation tbl := (table string pyval T).
  Context (mtset : list pyval → list pyval)
    (mtset_ok : ∀ l, NoDup (mtset l) ∧ ∀ x, x ∈ mtset l ↔ x ∈ l).

  Notation value t key i := (field VNone (contents t) key i).
  Definition levels (t : tbl) (m : mode) (mapping : list (string * bool)) :=
    map (λ kv : string * bool, (dir_cmp kv.2 (mode_cmp coll pystr m), λ i, value t kv.1 i)) mapping.

  Lemma field_dget_contents (t : tbl) key c i :
    dget t key = Some c → value t key i = default VNone (col_iter c !! i).
  Proof using Type.
    clear. induction t as [|[k c'] t IH]; [done|]. cbn [dget contents map field fst snd].
    intros H. destruct (decide (key = k)) as [->|Hne].
    - injection H as ->. by rewrite decide_True.
    - rewrite decide_False by congruence. by apply IH.
  Qed.

  Lemma add_level_map m d (R : nat → list Z) (col : list pyval) (f : pyval → Z) s :
    (∀ v, v ∈ col → rank_get m d v = Some (f v)) →
    add_level m d (map R (seq s (length col))) col
    = Ok (map (λ i, R i ++ [f (default VNone (col !! (i - s)%nat))]) (seq s (length col))).
  Proof using Type.
    clear. revert s. induction col as [|v col IH]; intros s H; [done|]. cbn [length seq map add_level].
    rewrite H by (by left). rewrite IH by (intros; apply H; by right). cbn [res_map].
    rewrite Nat.sub_diag. do 2 f_equal. apply map_ext_in. intros i Hi%in_seq.
    replace (i - s)%nat with (S (i - S s)) by lia. done.
  Qed.
  Lemma add_level_inv m d rk col rk' :
    length rk = length col → add_level m d rk col = Ok rk' → ∀ v, v ∈ col → is_Some (rank_get m d v).
  Proof using Type.
    clear. revert rk rk'. induction col as [|v col IH]; intros [|r rk] rk' Hl H; try done.
    { intros v ?%elem_of_nil. done. }
    cbn [add_level] in H. destruct (rank_get m d v) eqn:E; [|done].
    destruct (add_level m d rk col) as [rk2|] eqn:E2; [|done].
    intros w [->|Hw]%elem_of_cons; [by eexists|]. eapply IH; [|exact E2|done]. simpl in Hl. lia.
  Qed.

  (** every level adds a rank that only depends on the value *)
  Lemma sort_levels_inv (t : tbl) n m mapping R rk' :
    rect n (contents t) →
    sort_levels coll pystr mtset t m mapping (map R (seq 0 n)) = Ok rk' →
    ∃ R', rk' = map R' (seq 0 n) ∧
      ∀ i j, R i = R j → (∀ kv, kv ∈ mapping → value t kv.1 i = value t kv.1 j) → R' i = R' j.
  Proof using Type.
    clear ps_pos mtset_ok. intros Hr. revert R. induction mapping as [|[key rev] mapping IH]; intros R H; cbn [sort_levels] in H.
    { exists R. split; [congruence|done]. }
    destruct (dget t key) as [c|] eqn:Hc; [|done].
    destruct (rank coll pystr (mtset (col_iter c)) rev m) as [d|] eqn:Hd; [|done]. cbn [res_bind] in H.
    assert (Hn : length (col_iter c) = n) by (by eapply rect_dget).
    destruct (add_level m d (map R (seq 0 n)) (col_iter c)) as [rk2|] eqn:Ha; [|done]. cbn [res_bind] in H.
    pose proof (add_level_inv _ _ _ _ _ (ltac:(by rewrite map_length, seq_length)) Ha) as Hs.
    subst n.
    rewrite (add_level_map _ _ _ _ (λ v, default 0 (rank_get m d v))) in Ha.
    2:{ intros v Hv. destruct (Hs v Hv) as [x ->]. done. }
    injection Ha as <-. apply IH in H as (R' & -> & HR'). exists R'. split; [done|].
    intros i j Hij Hv. apply HR'.
    - f_equal; [done|]. do 3 f_equal. rewrite !Nat.sub_0_r.
      rewrite <-!(field_dget_contents t key c) by done. apply (Hv (key, rev)). by left.
    - intros kv Hkv. apply Hv. by right.
  Qed.

  Lemma sort_levels_spec (t : tbl) n m mapping R :
    rect n (contents t) →
    (∀ key rev, (key, rev) ∈ mapping → ∃ c, dget t key = Some c ∧ sortable coll pystr m rev (col_iter c)) →
    (∀ i j, length (R i) = length (R j)) →
    ∃ R', sort_levels coll pystr mtset t m mapping (map R (seq 0 n)) = Ok (map R' (seq 0 n)) ∧
      ∀ i j, (i < n)%nat → (j < n)%nat →
        list_cmp (R' i) (R' j) = thenc (list_cmp (R i) (R j)) (levels_cmp (levels t m mapping) i j).
  Proof using mtset_ok.
    intros Hr. revert R. induction mapping as [|[key rev] mapping IH]; intros R Hs Hl; cbn [sort_levels].
    { exists R. split; [done|]. intros. simpl. by destruct (list_cmp _ _). }
    destruct (Hs key rev) as (c & Hc & Hsort); [by left|]. rewrite Hc.
    destruct (mtset_ok (col_iter c)) as [Hnd Hin].
    assert (Hsort' : sortable coll pystr m rev (mtset (col_iter c))).
    { clear - Hsort Hin. revert Hsort. unfold sortable. destruct m; setoid_rewrite Hin; done. }
    destruct (rank_spec coll pystr m rev _ Hnd Hsort') as (d & Hd & Hrank). rewrite Hd. cbn [res_bind].
    assert (Hn : length (col_iter c) = n) by (by eapply rect_dget). subst n.
    rewrite (add_level_map _ _ _ _ (λ v, default 0 (rank_get m d v))).
    2:{ intros v Hv. apply Hin in Hv. destruct (Hrank v v Hv Hv) as (r & _ & -> & _). done. }
    cbn [res_bind].
    edestruct (IH (λ i, R i ++ [default 0 (rank_get m d (default VNone (col_iter c !! (i - 0)%nat)))])) as (R' & HR & HR').
    { intros k r Hk. apply Hs. by right. }
    { intros i j. rewrite !app_length. simpl. by rewrite (Hl i j). }
    exists R'. split; [exact HR|]. intros i j Hi Hj. rewrite HR' by done.
    rewrite list_cmp_app by apply Hl. rewrite thenc_assoc. f_equal.
    rewrite !Nat.sub_0_r. cbn [levels map levels_cmp fst snd].
    rewrite !(field_dget_contents t key c) by done.
    destruct (lookup_lt_is_Some_2 (col_iter c) i Hi) as [vi Hvi].
    destruct (lookup_lt_is_Some_2 (col_iter c) j Hj) as [vj Hvj].
    rewrite Hvi, Hvj. change (default VNone (Some vi)) with vi. change (default VNone (Some vj)) with vj.
    destruct (Hrank vi vj) as (ra & rb & Ha & Hb & Hab).
    { apply Hin. by eapply elem_of_list_lookup_2. } { apply Hin. by eapply elem_of_list_lookup_2. }
    rewrite Ha, Hb. change (default 0 (Some ra)) with ra. change (default 0 (Some rb)) with rb.
    cbn [list_cmp]. rewrite Hab. unfold levels. by destruct (dir_cmp _ _ _ _).
  Qed.

  Definition order_cmp (R : nat → list Z) (i j : nat) : comparison := thenc (list_cmp (R i) (R j)) (Nat.compare i j).

  Lemma order_sort (R : nat → list Z) n :
    (py_sort order_leb (zip (map R (seq 0 n)) (seq 0 n))).*2 = py_sort (leb_of (order_cmp R)) (seq 0 n).
  Proof using Type.
    clear. assert (Hz : zip (map R (seq 0 n)) (seq 0 n) = map (λ i, (R i, i)) (seq 0 n)).
    { generalize (seq 0 n). induction l as [|x l IH]; [done|]. simpl. by f_equal. }
    rewrite Hz, (py_sort_map _ _ (leb_of (order_cmp R))) by done. by rewrite map_snd_mk.
  Qed.

  Lemma order_stable (R : nat → list Z) n :
    stable_order n (λ i j, list_cmp (R i) (R j)) (py_sort (leb_of (order_cmp R)) (seq 0 n)).
  Proof using Type.
    clear. split; [apply py_sort_perm|].
    eapply sorted_NoDup.
    - apply cmp_sorted. exact (cmp_then _ _ (cmp_map _ listcmp_ok R) Ncmp_ok).
    - rewrite py_sort_perm. apply NoDup_seq.
    - intros i j _ _. unfold order_cmp. destruct (list_cmp (R i) (R j)); simpl; [|auto|done].
      intros Hij Hne. right. split; [done|]. apply Nat.compare_le_iff in Hij. lia.
  Qed.

  Lemma sort_index_unfold (t : tbl) m mapping n :
    rect n (contents t) → t ≠ [] → mapping ≠ [] →
    sort_index coll pystr mtset t m mapping =
      if negb (forallb (λ kv, bool_decide (kv.1 ∈ t.*1)) mapping) then Err ValueError else
      res_bind (sort_levels coll pystr mtset t m mapping (map (λ _, [] : list Z) (seq 0 n))) (λ rk,
        Ok ((py_sort order_leb (zip rk (seq 0 n))).*2)).
  Proof using Type.
    clear ps_pos mtset_ok. intros Hr Hne Hm. unfold sort_index.
    rewrite tbl_len_spec, Nat2Z.id, (nrows_rect _ n); [|done|by destruct t].
    replace (map (λ _, [] : list Z) (seq 0 n)) with (replicate n ([] : list Z)); [by destruct mapping|].
    generalize 0%nat; clear; induction n as [|n IH]; intros s; simpl; [done|by rewrite <-(IH (S s))].
  Qed.

  Lemma sort_index_ok (t : tbl) m mapping n ixs :
    rect n (contents t) → t ≠ [] → sort_index coll pystr mtset t m mapping = Ok ixs →
    ∃ R, ixs = py_sort (leb_of (order_cmp R)) (seq 0 n) ∧
      ∀ i j, (∀ kv, kv ∈ mapping → value t kv.1 i = value t kv.1 j) → R i = R j.
  Proof using Type.
    clear ps_pos mtset_ok. intros Hr Hne H.
    rewrite (sort_index_unfold t m mapping n) in H; [|done|done|by intros ->].
    destruct (negb _); [done|].
    destruct (sort_levels _ _ _ _ _ _ _) as [rk|] eqn:Hrk; [|done]. cbn [res_bind] in H.
    apply (sort_levels_inv t n) in Hrk as (R & -> & HR); [|done].
    exists R. split; [|intros; by apply HR]. rewrite order_sort in H. congruence.
  Qed.

  Lemma stable_order_ext n (c c' : nat → nat → comparison) ixs :
    (∀ i j, (i < n)%nat → (j < n)%nat → c i j = c' i j) → stable_order n c ixs → stable_order n c' ixs.
  Proof using Type.
    clear. intros H [Hp Hs]. split; [done|].
    assert (Hin : ∀ i, i ∈ ixs → (i < n)%nat) by (intros i; rewrite Hp, elem_of_seq; lia).
    clear Hp. induction Hs as [|x l Hl IH Hx]; [constructor|]. constructor.
    - apply IH. intros. apply Hin. by right.
    - apply list.Forall_forall. intros y Hy.
      pose proof (proj1 (list.Forall_forall _ _) Hx y Hy) as H0; cbn beta in H0.
      rewrite <-H; [done|apply Hin; by left|apply Hin; by right].
  Qed.

  Lemma sort_index_spec (t : tbl) m mapping n :
    rect n (contents t) → t ≠ [] → mapping ≠ [] →
    (∀ key rev, (key, rev) ∈ mapping → ∃ c, dget t key = Some c ∧ sortable coll pystr m rev (col_iter c)) →
    ∃ ixs, sort_index coll pystr mtset t m mapping = Ok ixs ∧
      stable_order n (levels_cmp (levels t m mapping)) ixs.
  Proof using mtset_ok.
    clear ps_pos. intros Hr Hne Hm Hs. rewrite (sort_index_unfold t m mapping n) by done.
    assert (forallb (λ kv, bool_decide (kv.1 ∈ t.*1)) mapping = true) as ->.
    { apply forallb_forall. intros [key rev] Hin%elem_of_list_In. apply bool_decide_eq_true.
      destruct (Hs key rev Hin) as (c & Hc & _). by eapply dget_elem. }
    cbn [negb]. destruct (sort_levels_spec t n m mapping (λ _, [])) as (R & -> & HR); [done|done|done|].
    cbn [res_bind]. eexists. split; [done|]. rewrite order_sort.
    eapply stable_order_ext; [|apply order_stable]. intros i j Hi Hj. cbn beta. by rewrite HR.
  Qed.

  Lemma reindex_nat (t : tbl) ixs :
    NoDup t.*1 → t ≠ [] →
    ∃ r, reindex ty VNone ps t (map Z.of_nat ixs) = Ok r ∧ names (contents r) = names (contents t) ∧
      rows VNone (contents r) = map (row VNone (contents t)) ixs.
  Proof using ps_pos.
    clear mtset_ok. intros Hnd Hne.
    destruct (reindex_rows ty VNone ps ps_pos t (map Z.of_nat ixs)) as (r & Hr & Hn & Hrows); [done|done| | |].
    { apply Forall_fmap, Forall_true. intros i. simpl. lia. }
    { right. rewrite elem_of_list_In. intros (i & Hi & _)%in_map_iff. lia. }
    exists r. split; [done|]. split; [done|]. rewrite Hrows, map_map. apply map_ext. intros i.
    destruct (Z.eqb_spec (Z.of_nat i) (-1)); [lia|]. simpl. by rewrite Nat2Z.id.
  Qed.

  Lemma sort_permutation (t r : tbl) m mapping n :
    NoDup t.*1 → rect n (contents t) → t ≠ [] → sort coll pystr ty ps mtset t m mapping = Ok r →
    ∃ ixs, ixs ≡ₚ seq 0 n ∧
      StronglySorted (λ i j, (∀ kv, kv ∈ mapping → value t kv.1 i = value t kv.1 j) → (i < j)%nat) ixs ∧
      names (contents r) = names (contents t) ∧ rows VNone (contents r) = map (row VNone (contents t)) ixs.
  Proof using ps_pos.
    clear mtset_ok. intros Hnd Hr Hne H. unfold sort in H.
    destruct (sort_index coll pystr mtset t m mapping) as [ixs|] eqn:Hi; [|done]. cbn [res_bind] in H.
    destruct (sort_index_ok t m mapping n ixs Hr Hne Hi) as (R & -> & HR).
    destruct (order_stable R n) as [Hp Hs].
    destruct (reindex_nat t (py_sort (leb_of (order_cmp R)) (seq 0 n)) Hnd Hne) as (r' & Hr' & Hn & Hrows).
    assert (r' = r) as -> by congruence.
    eexists. split; [exact Hp|]. split; [|done].
    eapply sorted_NoDup; [exact Hs|rewrite Hp; apply NoDup_seq|].
    intros i j _ _ Hij _ Hv. cbn beta in Hij. rewrite (HR i j Hv), (cmp_refl _ listcmp_ok) in Hij.
    by destruct Hij as [?|[_ ?]].
  Qed.

  Lemma sort_spec (t : tbl) m mapping n :
    NoDup t.*1 → rect n (contents t) → t ≠ [] → mapping ≠ [] →
    (∀ key rev, (key, rev) ∈ mapping → ∃ c, dget t key = Some c ∧ sortable coll pystr m rev (col_iter c)) →
    ∃ r ixs, sort coll pystr ty ps mtset t m mapping = Ok r ∧
      stable_order n (levels_cmp (levels t m mapping)) ixs ∧
      names (contents r) = names (contents t) ∧ rows VNone (contents r) = map (row VNone (contents t)) ixs.
  Proof using ps_pos mtset_ok.
    intros Hnd Hr Hne Hm Hs. destruct (sort_index_spec t m mapping n Hr Hne Hm Hs) as (ixs & Hi & Ho).
    destruct (reindex_nat t ixs Hnd Hne) as (r & Hre & Hn & Hrows).
    exists r, ixs. split; [|done]. unfold sort. by rewrite Hi.
  Qed.

  (** a stable order is unique *)
  Lemma stable_order_unique n (c : nat → nat → comparison) l k :
    (∀ i j, c j i = CompOpp (c i j)) → stable_order n c l → stable_order n c k → l = k.
  Proof using Type.
    clear. intros Hopp [Hl Hsl] [Hk Hsk].
    assert (Hp : l ≡ₚ k) by (by rewrite Hl, Hk). clear Hl Hk.
    revert k Hsk Hp. induction Hsl as [|x l Hl IH Hx]; intros k Hsk Hp.
    { by apply Permutation_nil in Hp as ->. }
    destruct k as [|y k]; [symmetry in Hp; by apply Permutation_nil_cons in Hp|].
    inversion Hsk as [|? ? Hk Hy]; subst. assert (x = y) as ->.
    { destruct (decide (x = y)) as [|Hne]; [done|]. exfalso.
      assert (Hxk : x ∈ k).
      { assert (x ∈ y :: k) as [->|?]%elem_of_cons by (rewrite <-Hp; by left); done. }
      assert (Hyl : y ∈ l).
      { assert (y ∈ x :: l) as [->|?]%elem_of_cons by (rewrite Hp; by left); done. }
      pose proof (proj1 (list.Forall_forall _ _) Hx y Hyl) as H1.
      pose proof (proj1 (list.Forall_forall _ _) Hy x Hxk) as H2. cbn beta in H1, H2.
      rewrite (Hopp x y) in H2. destruct (c x y); simpl in H2; destruct H1 as [H1|[H1 ?]], H2 as [H2|[H2 ?]]; try done. lia. }
    f_equal. apply IH; [done|]. by apply Permutation_cons_inv in Hp.
  Qed.

  Lemma levels_opp (t : tbl) m mapping i j :
    levels_cmp (levels t m mapping) j i = CompOpp (levels_cmp (levels t m mapping) i j).
  Proof using Type.
    clear. induction mapping as [|[key rev] mapping IH]; [done|]. cbn [levels map levels_cmp fst snd].
    rewrite (cmp_opp _ (cmp_dir _ (mode_cmp_ok coll pystr m) rev) (value t key i) (value t key j)).
    fold (levels t m mapping). rewrite IH. by destruct (dir_cmp _ _ _ _).
  Qed.

  Lemma is_sorted_spec (t : tbl) m mapping n :
    rect n (contents t) → t ≠ [] → mapping ≠ [] →
    (∀ key rev, (key, rev) ∈ mapping → ∃ c, dget t key = Some c ∧ sortable coll pystr m rev (col_iter c)) →
    ∃ b, is_sorted coll pystr mtset t m mapping = Ok b ∧
      (b = true ↔ ∀ i j, (i < j < n)%nat → levels_cmp (levels t m mapping) i j ≠ Gt).
  Proof using mtset_ok.
    clear ps_pos. intros Hr Hne Hm Hs. destruct (sort_index_spec t m mapping n Hr Hne Hm Hs) as (ixs & Hi & Ho).
    unfold is_sorted. rewrite Hi. cbn [res_bind]. eexists. split; [done|].
    rewrite bool_decide_eq_true, tbl_len_spec, Nat2Z.id, (nrows_rect _ n); [|done|by destruct t].
    split.
    - intros -> i j [Hij Hj]. destruct Ho as [_ Ho].
      pose proof (StronglySorted_lookup _ _ i j i j Ho Hij) as H.
      rewrite !lookup_seq in H. specialize (H ltac:(split; lia) ltac:(split; lia)). cbn beta in H.
      destruct H as [->|[-> _]]; done.
    - intros H. eapply (stable_order_unique n); [intros; apply levels_opp|exact Ho|].
      split; [done|].
      assert (Hseq : ∀ s k, (s + k <= n)%nat →
        StronglySorted (λ i j, levels_cmp (levels t m mapping) i j = Lt ∨
          levels_cmp (levels t m mapping) i j = Eq ∧ (i < j)%nat) (seq s k)).
      { intros s k. revert s. induction k as [|k IH]; intros s Hsk; [constructor|]. cbn [seq]. constructor.
        - apply IH. lia.
        - apply list.Forall_forall. intros j Hj%elem_of_seq.
          pose proof (H s j ltac:(lia)) as H0. destruct (levels_cmp _ s j); [right|by left|done]. split; [done|lia]. }
      apply Hseq. lia.
  Qed.
End sort.
