(** Tables: adding rows and stacking. *)
From Verif.Spec Require Import Counts Rows.
From Verif.Spec Require Export TableTerms.
From Verif.Model Require Import Table.
From Verif.Proof Require Import DictLemmas SliceLemmas ColumnRead ColumnMisc TableBase TableProofs.
From Coq Require Import ZifyBool.
Local Open Scope Z_scope.

Section proofs.
  Context {N A T : Type} `{EqDecision N, EqDecision T} (ty : A → T) (none : A) (ps : Z).
  Context (ps_pos : 0 < ps).
  Implicit Types (t u : table N A T) (v w : view (N := N) (A := A)).
  Notation at_ := (at_ none).

  (** ** one row argument *)
  Definition app_opt (c : N * list A) (o : option A) : N * list A := (c.1, c.2 ++ option_list o).

  Lemma append_all_spec (kvs : list (N * A)) (d : list (N * list A)) :
    NoDup d.*1 → NoDup kvs.*1 → (∀ n, n ∈ kvs.*1 → n ∈ d.*1) →
    append_all d kvs = Ok (map (λ c, app_opt c (dget kvs c.1)) d).
  Proof.
    revert d. induction kvs as [|[k x] kvs IH]; intros d Hd Hk Hin.
    { simpl. f_equal. symmetry. rewrite <- (map_id d) at 2. apply map_ext. intros [n l].
      unfold app_opt. simpl. by rewrite app_nil_r. }
    apply list.NoDup_cons in Hk as [Hkn Hk]. simpl in Hkn.
    destruct (dget_in d k) as [vs Hvs]; [apply Hin; by left|].
    cbn [append_all]. rewrite Hvs.
    assert (Hkeys : (dset d k (vs ++ [x])).*1 = d.*1).
    { rewrite dset_keys. rewrite decide_True; [done|]. by eapply dget_elem. }
    rewrite IH; [|by rewrite Hkeys|done|].
    2:{ intros n Hn. rewrite Hkeys. apply Hin. by right. }
    f_equal. apply dict_ext.
    - change (map (λ c, app_opt c (dget kvs c.1)) (dset d k (vs ++ [x]))).*1
        with (map fst (map (λ c, app_opt c (dget kvs c.1)) (dset d k (vs ++ [x])))).
      change (map (λ c, app_opt c (dget ((k, x) :: kvs) c.1)) d).*1
        with (map fst (map (λ c, app_opt c (dget ((k, x) :: kvs) c.1)) d)).
      rewrite !map_map. exact Hkeys.
    - change (map (λ c, app_opt c (dget kvs c.1)) (dset d k (vs ++ [x]))).*1
        with (map fst (map (λ c, app_opt c (dget kvs c.1)) (dset d k (vs ++ [x])))).
      rewrite map_map. simpl. change (NoDup (dset d k (vs ++ [x])).*1). by rewrite Hkeys.
    - assert (Hm : ∀ kvs (d : list (N * list A)) n,
        dget (map (λ c, app_opt c (dget kvs c.1)) d) n
        = (λ l, l ++ option_list (dget kvs n)) <$> dget d n).
      { clear. intros kvs d n. induction d as [|[m l] d IH]; simpl; [done|].
        case_decide; subst; done. }
      intros n. rewrite !Hm, dget_dset. cbn [dget].
      destruct (decide (n = k)) as [->|]; [|done].
      rewrite Hvs. simpl. rewrite (proj2 (dget_None kvs k)) by done. simpl. by rewrite app_nil_r.
  Qed.

  (** the name-value pairs of a row argument *)
  Definition arg_items (t : table N A T) (a : row_arg N A) : list (N * A) :=
    match a with RowList l => zip t.*1 l | RowDict d => d end.


  Lemma arg_row_items t a r :
    NoDup t.*1 → arg_row t.*1 a r →
    NoDup (arg_items t a).*1 ∧ (∀ n, n ∈ (arg_items t a).*1 → n ∈ t.*1) ∧
    arg_len a = zlen t ∧ map (dget (arg_items t a)) t.*1 = map Some r.
  Proof.
    intros Ht. destruct a as [l|d]; simpl.
    - intros [-> Hl]. rewrite fmap_length in Hl. rewrite fst_zip by (rewrite fmap_length; lia). split_and!; [done|done|lia|].
      assert (Hz : ∀ (ns : list N) (l : list A), NoDup ns → length l = length ns →
        map (dget (zip ns l)) ns = map Some l).
      { clear. induction ns as [|n ns IH]; intros [|x l] Hnd Hl; simpl in *; try done.
        apply list.NoDup_cons in Hnd as [Hn Hnd]. rewrite decide_True by done. f_equal.
        rewrite <- (IH l) by (done || lia). apply list_fmap_ext. intros i m Hm%elem_of_list_lookup_2.
        rewrite decide_False; [done|]. by intros ->. }
      apply Hz; [done|]. by rewrite fmap_length.
    - intros (Hnd & Hl & Hf).
      assert (Hsub : t.*1 ⊆ d.*1).
      { intros n Hn. apply elem_of_list_lookup in Hn as [i Hi].
        destruct (Forall2_lookup_l _ _ _ _ _ Hf Hi) as (x & _ & Hx).
        by apply (elem_of_list_fmap_1 fst) in Hx. }
      split_and!; [done| |rewrite fmap_length in Hl; lia|].
      + assert (t.*1 ≡ₚ d.*1) as Hp.
        { apply submseteq_Permutation_length_le; [rewrite fmap_length; lia|by apply NoDup_submseteq]. }
        intros n. by rewrite Hp.
      + clear Hl Hsub Ht. induction Hf as [|n x ns r Hx Hf IH]; simpl; [done|]. f_equal; [|done].
        by apply dget_Some.
  Qed.

  Lemma add_rows_loop_spec t args rs (d : list (N * list A)) :
    NoDup t.*1 → d.*1 = t.*1 → Forall2 (arg_row t.*1) args rs →
    add_rows_loop t d args =
    Ok (map (λ c, (c.1, c.2 ++ concat (map (λ a, option_list (dget (arg_items t a) c.1)) args))) d).
  Proof.
    intros Ht Hd Hf. revert d Hd. induction Hf as [|a r args rs Ha Hf IH]; intros d Hd.
    { simpl. f_equal. symmetry. rewrite <- (map_id d) at 2. apply map_ext. intros [n l].
      simpl. by rewrite app_nil_r. }
    destruct (arg_row_items t a r Ht Ha) as (Hnd & Hin & Hlen & Hrow).
    cbn [add_rows_loop]. rewrite Hlen, Z.eqb_refl. cbn [negb].
    assert (match a with RowList vs => append_all d (zip t.*1 vs) | RowDict kvs => append_all d kvs end
            = append_all d (arg_items t a)) as -> by (by destruct a).
    rewrite append_all_spec; [|by rewrite Hd|done|by rewrite Hd]. cbn [res_bind].
    rewrite IH.
    - f_equal. rewrite map_map. apply map_ext. intros [n l]. simpl. by rewrite <- app_assoc.
    - change (map ?f ?k).*1 with (map fst (map f k)). rewrite map_map. exact Hd.
  Qed.

  Lemma extend_cols_spec (d : list (N * list A)) t :
    NoDup d.*1 → NoDup t.*1 → (∀ n, n ∈ d.*1 → n ∈ t.*1) →
    ∃ t', extend_cols ty ps t d = (Ok t', t') ∧
      contents t' = map (λ c, (c.1, c.2 ++ default [] (dget d c.1))) (contents t).
  Proof.
    revert t. induction d as [|[n vs] d IH]; intros t Hd Ht Hin.
    { exists t. split; [done|]. simpl. symmetry. rewrite <- (map_id (contents t)) at 2. apply map_ext. intros [m l].
      simpl. by rewrite app_nil_r. }
    apply list.NoDup_cons in Hd as [Hn Hd]. simpl in Hn.
    destruct (dget_in t n) as [c Hc]; [apply Hin; by left|].
    cbn [extend_cols]. rewrite Hc.
    assert (Hkeys : (dset t n (col_extend ty ps c vs)).*1 = t.*1).
    { rewrite dset_keys. rewrite decide_True; [done|]. by eapply dget_elem. }
    destruct (IH (dset t n (col_extend ty ps c vs))) as (t' & Ht' & Hcon); [done|by rewrite Hkeys| |].
    { intros m Hm. rewrite Hkeys. apply Hin. by right. }
    exists t'. split; [done|]. rewrite Hcon. rewrite contents_dset, col_extend_iter by done.
    assert (Hm : ∀ (f : N → list A) (e : list (N * list A)) k,
        dget (map (λ q, (q.1, q.2 ++ f q.1)) e) k = (λ l, l ++ f k) <$> dget e k).
    { clear. intros f e k. induction e as [|[m l] e IH]; simpl; [done|]. case_decide; by subst. }
    assert (Hk : ∀ (f : N → list A) (e : list (N * list A)), (map (λ q, (q.1, q.2 ++ f q.1)) e).*1 = e.*1).
    { clear. intros f e. induction e as [|[m l] e IH]; [done|]. rewrite !fmap_cons. by f_equal. }
    apply dict_ext.
    - rewrite (Hk (λ k, default [] (dget d k))), (Hk (λ k, default [] (dget ((n, vs) :: d) k))).
      rewrite dset_keys, decide_True; [done|]. pose proof (contents_names t) as Hcn. unfold names in Hcn.
      rewrite Hcn. by eapply dget_elem.
    - rewrite (Hk (λ k, default [] (dget d k))). apply dset_NoDup.
      pose proof (contents_names t) as Hcn. unfold names in Hcn. by rewrite Hcn.
    - intros k. rewrite (Hm (λ k, default [] (dget d k))), (Hm (λ k, default [] (dget ((n, vs) :: d) k))).
      rewrite dget_dset. cbn [dget]. destruct (decide (k = n)) as [->|]; [|done].
      rewrite contents_dget, Hc. simpl. rewrite (proj2 (dget_None d n)) by done. simpl. by rewrite app_nil_r.
  Qed.

  (** ** appending to every column of a rectangular view *)
  Lemma rows_append v n m (f : N → list A) :
    v ≠ [] → rect n v → (∀ k, k ∈ names v → length (f k) = m) →
    let v' := map (λ c, (c.1, c.2 ++ f c.1)) v in
    rect (n + m) v' ∧
    rows none v' = rows none v ++ map (λ i, map (λ k, at_ i (f k)) (names v)) (seq 0 m).
  Proof.
    intros Hne Hr Hf v'.
    assert (Hr' : rect (n + m) v').
    { apply list.Forall_forall. intros [k l'] Hin.
      apply elem_of_list_fmap in Hin as ([k' l] & [= -> ->] & Hin). simpl.
      rewrite app_length. pose proof (proj1 (list.Forall_forall _ _) Hr _ Hin) as Hl. simpl in Hl. rewrite Hl, Hf; [done|].
      by apply (elem_of_list_fmap_1 fst) in Hin. }
    split; [done|].
    unfold rows. rewrite (nrows_rect _ _ Hr Hne), (nrows_rect v' (n + m) Hr') by (by destruct v).
    rewrite seq_app, map_app. f_equal.
    - apply list_fmap_ext. intros _ i Hi%elem_of_list_lookup_2%elem_of_seq.
      unfold row, v'. rewrite map_map. apply list_fmap_ext. intros _ [k l] Hin%elem_of_list_lookup_2.
      simpl. pose proof (proj1 (list.Forall_forall _ _) Hr _ Hin) as Hl. simpl in Hl.
      rewrite lookup_app_l by lia. done.
    - pose proof (fmap_add_seq n 0 m) as Hs. rewrite Nat.add_0_r in Hs. rewrite Nat.add_0_l, <- Hs.
      change (Nat.add n <$> seq 0 m) with (map (Nat.add n) (seq 0 m)).
      rewrite map_map. apply list_fmap_ext. intros _ i Hi%elem_of_list_lookup_2%elem_of_seq.
      unfold row, v', names. rewrite map_map. change (v.*1) with (map fst v). rewrite map_map.
      apply list_fmap_ext. intros _ [k l] Hin%elem_of_list_lookup_2. simpl.
      pose proof (proj1 (list.Forall_forall _ _) Hr _ Hin) as Hl. simpl in Hl.
      rewrite lookup_app_r by lia. unfold TableBase.at_. repeat f_equal. lia.
  Qed.

  (** ** C25 *)
  Definition col_vals t args (k : N) : list A :=
    concat (map (λ a, option_list (dget (arg_items t a) k)) args).

  Lemma col_vals_rows t args rs :
    NoDup t.*1 → Forall2 (arg_row t.*1) args rs →
    (∀ k, k ∈ t.*1 → length (col_vals t args k) = length rs) ∧
    map (λ i, map (λ k, at_ i (col_vals t args k)) t.*1) (seq 0 (length rs)) = rs.
  Proof.
    intros Ht. induction 1 as [|a r args rs Ha Hf [IH1 IH2]]; [done|].
    destruct (arg_row_items t a r Ht Ha) as (_ & _ & _ & Hrow).
    assert (Hk : ∀ k, k ∈ t.*1 → ∃ x, dget (arg_items t a) k = Some x).
    { intros k [i Hi]%elem_of_list_lookup. change (map ?f ?l) with (f <$> l) in Hrow.
      pose proof (f_equal (.!! i) Hrow) as Hi'. cbn beta in Hi'. rewrite (list_lookup_fmap (dget (arg_items t a)) t.*1 i), Hi, list_lookup_fmap in Hi'.
      simpl in Hi'. destruct (r !! i); simpl in Hi'; [|done]. injection Hi' as ->. eauto. }
    split.
    - intros k Hin. destruct (Hk k Hin) as [x Hx]. unfold col_vals. simpl. rewrite Hx. simpl. f_equal. by apply IH1.
    - cbn [length seq map]. f_equal.
      + assert (Hr : map (λ k, default none (dget (arg_items t a) k)) t.*1 = r).
        { rewrite <- (map_map (dget (arg_items t a)) (default none)), Hrow, map_map. apply map_id. }
        rewrite <- Hr. apply list_fmap_ext. intros _ k Hin%elem_of_list_lookup_2.
        destruct (Hk k Hin) as [x Hx]. unfold col_vals. simpl. by rewrite Hx.
      + rewrite <- fmap_S_seq. change (S <$> seq 0 (length rs)) with (map S (seq 0 (length rs))).
        rewrite map_map. rewrite <- IH2 at 2. apply list_fmap_ext. intros _ i _.
        apply list_fmap_ext. intros _ k Hin%elem_of_list_lookup_2.
        destruct (Hk k Hin) as [x Hx]. unfold col_vals at 1. simpl. by rewrite Hx.
  Qed.

  Lemma add_rows_spec t n args rs :
    NoDup t.*1 → t ≠ [] → rect n (contents t) → Forall2 (arg_row t.*1) args rs →
    ∃ t', add_rows_args ty ps t args = (Ok t', t') ∧ names (contents t') = names (contents t) ∧
      rect (n + length rs) (contents t') ∧ rows none (contents t') = rows none (contents t) ++ rs.
  Proof.
    intros Ht Hne Hr Hf.
    destruct (col_vals_rows t args rs Ht Hf) as [Hlen Hrs].
    assert (∃ t', add_rows_args ty ps t args = (Ok t', t') ∧
              contents t' = map (λ c, (c.1, c.2 ++ col_vals t args c.1)) (contents t)) as (t' & Ht' & Hc).
    { destruct args as [|a args].
      { exists t. split; [done|]. unfold col_vals. simpl. symmetry. rewrite <- (map_id (contents t)) at 2.
        apply map_ext. intros [m l]. simpl. by rewrite app_nil_r. }
      set (d0 := map (λ c : N * column A T, (c.1, [] : list A)) t).
      assert (Hd0 : d0.*1 = t.*1).
      { unfold d0. clear. induction t as [|c t IH]; [done|]. rewrite !fmap_cons. by f_equal. }
      set (args' := a :: args) in *. unfold add_rows_args. fold args'. change (match args' with [] => _ | _ => ?x end) with x.
      fold d0. rewrite (add_rows_loop_spec t args' rs d0) by done.
      change (λ c : N * list A, (c.1, c.2 ++ concat (map (λ a, option_list (dget (arg_items t a) c.1)) args')))
        with (λ c : N * list A, (c.1, c.2 ++ col_vals t args' c.1)).
      set (d := map (λ c : N * list A, (c.1, c.2 ++ col_vals t args' c.1)) d0).
      assert (Hd : d.*1 = t.*1).
      { unfold d. rewrite <- Hd0. generalize d0. clear. induction d0 as [|c d0 IH]; [done|].
        simpl map. rewrite !fmap_cons. by f_equal. }
      destruct (extend_cols_spec d t) as (t' & Ht' & Hc); [by rewrite Hd|done|by rewrite Hd|].
      exists t'. split; [done|]. rewrite Hc. apply list_fmap_ext. intros _ [k l] Hin%elem_of_list_lookup_2.
      cbn [fst snd]. do 2 f_equal.
      assert (k ∈ d0.*1) as Hk.
      { rewrite Hd0, <- (contents_names t). by apply (elem_of_list_fmap_1 fst) in Hin. }
      assert (Hg : ∀ e : list (N * list A), k ∈ e.*1 → (∀ c, c ∈ e → c.2 = []) →
                dget (map (λ c : N * list A, (c.1, c.2 ++ col_vals t args' c.1)) e) k = Some (col_vals t args' k)).
      { clear. induction e as [|[m l] e IH]; [by intros ?%elem_of_nil|]. intros Hin Hnil. simpl.
        case_decide as Hkm; [subst|].
        - pose proof (Hnil (m, l) ltac:(by left)) as Hl. simpl in Hl. by rewrite Hl.
        - apply IH; [|by intros; apply Hnil; right]. rewrite fmap_cons in Hin. by apply elem_of_cons in Hin as [->|]. }
      unfold d. rewrite Hg; [done|done|]. intros c (c' & -> & _)%elem_of_list_fmap. done. }
    exists t'. split; [done|].
    assert (Hcne : contents t ≠ []) by (by destruct t).
    destruct (rows_append (contents t) n (length rs) (col_vals t args) Hcne Hr) as [H1 H2].
    { intros k. rewrite contents_names. apply Hlen. }
    rewrite Hc. split_and!.
    - unfold names. generalize (contents t). clear. induction v as [|c v IH]; [done|].
      simpl map. rewrite !fmap_cons. by f_equal.
    - exact H1.
    - rewrite H2. f_equal. rewrite contents_names. exact Hrs.
  Qed.

  Lemma append_all_keys (kvs : list (N * A)) (d d' : list (N * list A)) :
    append_all d kvs = Ok d' → d'.*1 = d.*1.
  Proof.
    revert d. induction kvs as [|[k x] kvs IH]; intros d; simpl; [by intros [= ->]|].
    destruct (dget d k) as [vs|] eqn:E; [|done]. intros ->%IH.
    rewrite dset_keys, decide_True; [done|]. by eapply dget_elem.
  Qed.

  Lemma add_rows_loop_keys t args (d d' : list (N * list A)) :
    add_rows_loop t d args = Ok d' → d'.*1 = d.*1.
  Proof.
    revert d. induction args as [|a args IH]; intros d; cbn [add_rows_loop]; [by intros [= ->]|].
    destruct (negb _); [done|].
    destruct (match a with RowList _ => _ | RowDict _ => _ end) as [d1|] eqn:E; [|done].
    cbn [res_bind]. intros ->%IH. destruct a; by apply append_all_keys in E.
  Qed.

  Lemma add_rows_raises t args e :
    NoDup t.*1 → (add_rows_args ty ps t args).1 = Err e → (add_rows_args ty ps t args).2 = t.
  Proof.
    intros Ht. unfold add_rows_args. destruct args as [|a args]; [done|].
    set (args' := a :: args).
    destruct (add_rows_loop t _ args') as [d|] eqn:E; [|done].
    apply add_rows_loop_keys in E.
    assert (Hd : d.*1 = t.*1).
    { rewrite E. clear. induction t as [|c t IH]; [done|]. simpl map. rewrite !fmap_cons. by f_equal. }
    destruct (extend_cols_spec d t) as (t' & Ht' & Hc); [by rewrite Hd|done|by rewrite Hd|].
    by rewrite Ht'.
  Qed.

  Lemma add_rows_rejects t args :
    NoDup t.*1 → Exists (λ a, arg_len a ≠ zlen t) args →
    ∃ e, add_rows_args ty ps t args = (Err e, t).
  Proof.
    intros Ht Hex.
    assert (Hl : ∀ d, ∃ e, add_rows_loop t d args = Err e).
    { induction Hex as [a args Ha|a args Hex IH]; intros d; cbn [add_rows_loop].
      - destruct (Z.eqb_spec (arg_len a) (zlen t)); [done|]. eauto.
      - destruct (negb _); [eauto|].
        destruct (match a with RowList _ => _ | RowDict _ => _ end) as [d1|] eqn:E; cbn [res_bind]; eauto. }
    unfold add_rows_args. destruct args as [|a args]; [by inversion Hex|].
    destruct (Hl (map (λ c, (c.1, [])) t)) as [e ->]. eauto.
  Qed.

  (** keyword arguments that name every column *)
  Lemma add_rows_kwlists_spec t n m (kw : list (N * list A)) :
    NoDup t.*1 → t ≠ [] → rect n (contents t) → NoDup kw.*1 →
    (∀ k, k ∈ kw.*1 ↔ k ∈ t.*1) → rect m kw →
    ∃ t', add_rows_kwlists ty ps t kw = (Ok t', t') ∧ names (contents t') = names (contents t) ∧
      rows none (contents t') = rows none (contents t) ++
        map (λ i, map (λ k, field none kw k i) (names (contents t))) (seq 0 m).
  Proof.
    intros Ht Hne Hr Hkw Hk Hm. unfold add_rows_kwlists.
    destruct (extend_cols_spec kw t) as (t' & Ht' & Hc); [done|done|by intros ? ?%Hk|].
    exists t'. split; [done|]. rewrite Hc.
    assert (Hcne : contents t ≠ []) by (by destruct t).
    destruct (rows_append (contents t) n m (λ k, default [] (dget kw k)) Hcne Hr) as [H1 H2].
    { intros k. rewrite contents_names. intros Hin%Hk. apply dget_in in Hin as [l Hl]. rewrite Hl. simpl.
      apply dget_Some in Hl; [|done]. apply (proj1 (list.Forall_forall _ _) Hm _ Hl). }
    split.
    - unfold names. generalize (contents t). clear. induction v as [|c v IH]; [done|].
      simpl map. rewrite !fmap_cons. by f_equal.
    - rewrite H2. f_equal. apply map_ext. intros i. apply map_ext. intros k. by rewrite field_dget.
  Qed.

  (** ** C26 *)
  Lemma tbl_copy_spec t : NoDup t.*1 → tbl_copy t = t.
  Proof. intros Ht. unfold tbl_copy, col_copy. by rewrite fold_dset_fresh. Qed.

  Lemma names_dget_field v w :
    names v = names w → NoDup (names v) → (∀ k i, k ∈ names v → field none v k i = field none w k i) →
    ∀ i, row none v i = row none w i.
  Proof.
    intros Hn Hnd Hf i. rewrite !row_fields by (by rewrite <- ?Hn). rewrite <- Hn.
    apply list_fmap_ext. intros _ k Hk%elem_of_list_lookup_2. by apply Hf.
  Qed.
End proofs.
