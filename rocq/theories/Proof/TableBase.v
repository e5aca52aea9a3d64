(** Tables: contents, rows, construction, dictionaries of columns. *)
From Verif.Spec Require Import Counts Rows.
From Verif.Model Require Import Table.
From Verif.Proof Require Import DictLemmas SliceLemmas ColumnRead ColumnMisc.
From Coq Require Import ZifyBool.
Local Open Scope Z_scope.

Section dicts.
  Context {N : Type} `{EqDecision N}.
  Lemma dget_map {V W} (f : V → W) (d : list (N * V)) n :
    dget (map (λ c, (c.1, f c.2)) d) n = f <$> dget d n.
  Proof. induction d as [|[m v] d IH]; simpl; [done|]. by case_decide. Qed.
  Lemma dset_map {V W} (f : V → W) (d : list (N * V)) n v :
    map (λ c, (c.1, f c.2)) (dset d n v) = dset (map (λ c, (c.1, f c.2)) d) n (f v).
  Proof. induction d as [|[m w] d IH]; simpl; [done|]. case_decide; simpl; by rewrite ?IH. Qed.
  Lemma map_fst_map {V W} (f : V → W) (d : list (N * V)) :
    (map (λ c, (c.1, f c.2)) d).*1 = d.*1.
  Proof. induction d as [|[m w] d IH]; simpl; [done|]. by f_equal. Qed.

  Lemma dset_fresh {V} (d : list (N * V)) n v : n ∉ d.*1 → dset d n v = d ++ [(n, v)].
  Proof.
    induction d as [|[m w] d IH]; simpl; intros Hn; [done|].
    apply not_elem_of_cons in Hn as [Hm Hn]. rewrite decide_False by done. by rewrite IH.
  Qed.
  (** filling a dict with new keys appends *)
  Lemma fold_dset_fresh {V} (l d : list (N * V)) :
    NoDup (d.*1 ++ l.*1) → fold_left (λ d c, dset d c.1 c.2) l d = d ++ l.
  Proof.
    revert d. induction l as [|[n v] l IH]; intros d Hnd; simpl; [by rewrite app_nil_r|].
    rewrite dset_fresh.
    - rewrite IH, <- app_assoc; [done|]. rewrite fmap_app, <- app_assoc. done.
    - intros Hin. apply list.NoDup_app in Hnd as (_ & Hnd & _). apply (Hnd n); [done|].
      rewrite fmap_cons. by left.
  Qed.
  Lemma dget_in {V} (d : list (N * V)) n : n ∈ d.*1 → ∃ v, dget d n = Some v.
  Proof.
    intros Hn. destruct (dget d n) eqn:E; [eauto|]. by apply dget_None in E.
  Qed.
  Lemma dget_elem {V} (d : list (N * V)) n v : dget d n = Some v → n ∈ d.*1.
  Proof.
    intros E. destruct (decide (n ∈ d.*1)) as [|Hn]; [done|].
    apply dget_None in Hn. congruence.
  Qed.
End dicts.

Section rows.
  Context {N A T : Type} `{EqDecision N, EqDecision T} (ty : A → T) (none : A) (ps : Z).
  Implicit Types (t u : table N A T) (v : view (N := N) (A := A)).

  Lemma contents_names t : names (contents t) = t.*1.
  Proof. apply map_fst_map. Qed.

  Lemma contents_dget t n : dget (contents t) n = col_iter <$> dget t n.
  Proof. apply dget_map. Qed.

  Lemma contents_dset t n c : contents (dset t n c) = dset (contents t) n (col_iter c).
  Proof. apply dset_map. Qed.

  Lemma contents_app t u : contents (t ++ u) = contents t ++ contents u.
  Proof. unfold contents. by rewrite map_app. Qed.

  (** ** length *)
  Lemma tbl_len_fold t m :
    fold_left (λ m (q : N * column A T), Z.max m (col_len q.2)) t (Z.of_nat m)
    = Z.of_nat (m `max` nrows (contents t))%nat.
  Proof.
    revert m. induction t as [|[n c] t IH]; intros m; simpl.
    - f_equal. unfold nrows. simpl. lia.
    - rewrite col_len_iter. replace (Z.max (Z.of_nat m) (zlen (col_iter c)))
        with (Z.of_nat (m `max` length (col_iter c))%nat) by lia.
      rewrite IH. f_equal. unfold nrows. simpl. lia.
  Qed.
  Lemma tbl_len_spec t : tbl_len t = Z.of_nat (nrows (contents t)).
  Proof. unfold tbl_len. apply (tbl_len_fold t 0). Qed.

  Lemma nrows_le v n l : (n, l) ∈ v → (length l <= nrows v)%nat.
  Proof.
    unfold nrows. induction v as [|[m k] v IH]; simpl; [by intros ?%elem_of_nil|].
    intros [[= -> ->]|Hin]%elem_of_cons; [lia|]. apply IH in Hin. lia.
  Qed.
  Lemma nrows_rect v n : rect n v → v ≠ [] → nrows v = n.
  Proof.
    unfold nrows, rect. induction 1 as [|[m l] v Hl Hv IH]; simpl in *; [done|]. intros _.
    destruct v as [|q v]; [simpl; lia|]. rewrite IH by done. lia.
  Qed.
  Lemma nrows_zero v : nrows v = 0%nat ↔ Forall (λ c, c.2 = []) v.
  Proof.
    unfold nrows. induction v as [|[m l] v IH]; simpl; [split; [constructor|done]|].
    rewrite list.Forall_cons, <- IH. simpl. split.
    - intros. split; [apply nil_length_inv; lia|lia].
    - intros [-> ?]. simpl. lia.
  Qed.

  (** ** rows *)
  Definition at_ (i : nat) (g : list A) : A := default none (g !! i).

  Lemma nexts_spec gens :
    Forall (λ g, g ≠ []) gens → nexts gens = Ok (map (at_ 0) gens, map (drop 1) gens).
  Proof.
    induction 1 as [|g gens Hg _ IH]; [done|]. destruct g as [|x g]; [done|].
    cbn [nexts]. rewrite IH. done.
  Qed.
  Lemma at_drop i gens : map (at_ i) (map (drop 1) gens) = map (at_ (S i)) gens.
  Proof.
    rewrite map_map. apply map_ext. intros g. unfold at_. rewrite lookup_drop. done.
  Qed.
  Lemma drop1_length n gens :
    Forall (λ g : list A, length g = S n) gens → Forall (λ g, length g = n) (map (drop 1) gens).
  Proof.
    intros Hg. apply Forall_fmap. eapply list.Forall_impl; [exact Hg|]. simpl.
    intros g Hl. rewrite drop_length. lia.
  Qed.
  Lemma len_nonempty n gens :
    Forall (λ g : list A, length g = S n) gens → Forall (λ g, g ≠ []) gens.
  Proof. intros Hg. eapply list.Forall_impl; [exact Hg|]. by intros [|] ?. Qed.

  Lemma rows_loop_spec n gens :
    Forall (λ g, length g = n) gens →
    rows_loop n gens = Ok (map (λ i, map (at_ i) gens) (seq 0 n)).
  Proof.
    revert gens. induction n as [|n IH]; intros gens Hg; [done|].
    cbn [rows_loop]. rewrite nexts_spec by (by eapply len_nonempty).
    cbn [res_bind fst snd]. rewrite IH by (by apply drop1_length).
    cbn [res_map]. cbn [seq map]. f_equal. f_equal. rewrite <- fmap_S_seq. change (S <$> seq 0 n) with (map S (seq 0 n)). rewrite map_map.
    apply map_ext. intros i. apply at_drop.
  Qed.

  Lemma at_pad i (l : list A) k : at_ i (l ++ replicate k none) = at_ i l.
  Proof.
    unfold at_. destruct (decide (i < length l)%nat).
    - by rewrite lookup_app_l.
    - rewrite lookup_app_r by lia. rewrite (lookup_ge_None_2 l) by lia.
      destruct (decide (i - length l < k)%nat).
      + by rewrite lookup_replicate_2.
      + rewrite lookup_ge_None_2; [done|]. rewrite replicate_length. lia.
  Qed.

  Lemma tbl_rows_spec t : tbl_rows none t = Ok (rows none (contents t)).
  Proof.
    unfold tbl_rows. rewrite tbl_len_spec, Nat2Z.id. rewrite rows_loop_spec.
    - f_equal. unfold rows. apply map_ext. intros i. unfold row, contents. rewrite !map_map.
      apply map_ext. intros [n c]. simpl. apply at_pad.
    - apply Forall_fmap, list.Forall_forall. intros [n c] Hin. simpl.
      rewrite app_length, replicate_length, col_len_iter.
      assert ((n, col_iter c) ∈ contents t) as Hin'.
      { apply elem_of_list_fmap. by exists (n, c). }
      apply nrows_le in Hin'. lia.
  Qed.

  (** ** zip *)
  Lemma zip_all_loop_spec n ls :
    Forall (λ g, length g = n) ls → zip_all_loop n ls = map (λ i, map (at_ i) ls) (seq 0 n).
  Proof.
    revert ls. induction n as [|n IH]; intros ls Hg; [done|].
    cbn [zip_all_loop]. rewrite nexts_spec by (by eapply len_nonempty).
    cbn [fst snd]. rewrite IH by (by apply drop1_length).
    cbn [seq map]. f_equal. rewrite <- fmap_S_seq.
    change (S <$> seq 0 n) with (map S (seq 0 n)). rewrite map_map.
    apply map_ext. intros i. apply at_drop.
  Qed.
  Lemma zip_all_spec n ls :
    ls ≠ [] → Forall (λ g, length g = n) ls → zip_all ls = map (λ i, map (at_ i) ls) (seq 0 n).
  Proof.
    intros Hne Hl. destruct ls as [|l ls]; [done|]. unfold zip_all.
    pose proof (proj1 (proj1 (list.Forall_cons _ _ _) Hl)) as Hl0. cbn beta in Hl0. rewrite Hl0. by apply zip_all_loop_spec.
  Qed.

  Lemma at_seq (l : list A) : map (λ i, at_ i l) (seq 0 (length l)) = l.
  Proof.
    apply list_eq. intros i. change (map ?f ?k) with (f <$> k). rewrite list_lookup_fmap.
    destruct (decide (i < length l)%nat) as [Hi|Hi].
    - rewrite lookup_seq_lt by done. simpl. unfold at_.
      destruct (lookup_lt_is_Some_2 l i Hi) as [x ->]. done.
    - rewrite (lookup_ge_None_2 l) by lia. rewrite lookup_ge_None_2; [done|]. rewrite seq_length. lia.
  Qed.

  (** ** building *)
  Lemma tbl_of_columns_spec (cols : list (N * list A)) :
    0 < ps → NoDup cols.*1 → contents (tbl_of_columns ty ps cols) = cols.
  Proof.
    intros Hps Hnd. unfold tbl_of_columns.
    assert (H : ∀ (l : list (N * list A)) t, contents (fold_left (λ t c, tbl_set ty ps t c.1 c.2) l t)
                       = fold_left (λ d c, dset d c.1 c.2) l (contents t)).
    { induction l as [|[n vs] l IH]; intros t; simpl; [done|]. rewrite IH. f_equal.
      unfold tbl_set. rewrite contents_dset. f_equal. unfold col_new. by rewrite col_extend_iter. }
    rewrite H. simpl. by rewrite fold_dset_fresh.
  Qed.

  Lemma tbl_init_spec (h : list N) (r : list (list A)) :
    0 < ps → NoDup h → h ≠ [] → r ≠ [] → Forall (λ x, length x = length h) r →
    let t := tbl_init ty ps h r in
    names (contents t) = h ∧ rows none (contents t) = r.
  Proof.
    intros Hps Hnd Hh Hr Hl. unfold tbl_init.
    destruct h as [|h0 h']; [done|]. destruct r as [|r0 r']; [done|].
    set (h := h0 :: h') in *. set (r := r0 :: r') in *.
    rewrite (zip_all_spec (length h)) by done.
    set (cols := map (λ j, map (at_ j) r) (seq 0 (length h))).
    assert (Hlen : length cols = length h) by (unfold cols; by rewrite map_length, seq_length).
    assert (Hfst : (zip h cols).*1 = h) by (apply fst_zip; lia).
    rewrite fold_dset_fresh by (by rewrite Hfst). rewrite app_nil_l.
    cbv zeta. rewrite tbl_of_columns_spec; [|done|by rewrite Hfst].
    split; [exact Hfst|].
    assert (Hsnd : (zip h cols).*2 = cols) by (apply snd_zip; lia).
    assert (Hrect : rect (length r) (zip h cols)).
    { unfold rect. apply list.Forall_forall. intros [n l] Hin.
      apply (elem_of_list_fmap_1 snd) in Hin. rewrite Hsnd in Hin.
      apply elem_of_list_fmap in Hin as (j & -> & _). simpl. by rewrite map_length. }
    assert (Hn : nrows (zip h cols) = length r).
    { apply nrows_rect; [done|]. unfold h. destruct cols; [simpl in Hlen; lia|done]. }
    unfold rows. rewrite Hn.
    apply list_eq. intros i. change (map ?f ?k) with (f <$> k). rewrite list_lookup_fmap.
    destruct (decide (i < length r)%nat) as [Hi|Hi].
    2:{ rewrite (lookup_ge_None_2 r) by lia. rewrite lookup_ge_None_2; [done|]. rewrite seq_length. lia. }
    rewrite lookup_seq_lt by done. simpl.
    destruct (lookup_lt_is_Some_2 r i Hi) as [x Hx]. rewrite Hx. f_equal.
    transitivity (map (at_ i) (zip h cols).*2).
    { unfold row. change ((zip h cols).*2) with (map snd (zip h cols)). by rewrite map_map. }
    rewrite Hsnd.
    unfold cols. change (map ?f ?k) with (f <$> k). rewrite <- list_fmap_compose.
    pose proof (proj1 (list.Forall_forall _ _) Hl x (elem_of_list_lookup_2 _ _ _ Hx)) as Hxl. cbn beta in Hxl.
    rewrite <- Hxl. rewrite <- (at_seq x) at 2. apply list_fmap_ext. intros k j _.
    cbn beta. assert (E : (at_ j <$> r) !! i = Some (at_ j x)) by (by rewrite list_lookup_fmap, Hx).
    change (default none ((at_ j <$> r) !! i) = at_ j x). by rewrite E.
  Qed.
End rows.
