From Verif.Spec Require Export Pivot.
From Verif.Model Require Export Pivots Dtype.
From Verif.Proof Require Export SliceLemmas ColumnRead ColumnMisc TableBase TableRows TableSelect TableMisc TableProofs DictLemmas.
Local Open Scope Z_scope.

Section transpose.
  Context {N A T : Type} `{EqDecision N, EqDecision T} (ty : A → T) (none : A) (ps : Z).
  Context (name_val : N → A) (as_key : A → N).
  Implicit Type t : table N A T.

  Lemma transpose_fold (rs : list (list A)) t :
    0 < ps → Forall (λ r, r ≠ []) rs → NoDup (t.*1 ++ map (λ r, as_key (hd none r)) rs) →
    contents (fold_left (λ new row, match row with
                                    | key :: values => tbl_set ty ps new (as_key key) values
                                    | [] => new
                                    end) rs t)
    = contents t ++ map (λ r, (as_key (hd none r), tl r)) rs.
  Proof.
    intros Hps. revert t. induction rs as [|r rs IH]; intros t Hne Hnd; cbn [fold_left map].
    - by rewrite app_nil_r.
    - apply list.Forall_cons in Hne as [Hr Hne]. destruct r as [|k vs]; [done|]. cbn [hd tl map] in *.
      assert (as_key k ∉ t.*1) as Hk.
      { intros Hin. apply NoDup_app in Hnd as (_ & H & _). by eapply H; [exact Hin|left]. }
      rewrite IH; [|done|].
      + unfold tbl_set. rewrite contents_dset, dset_fresh.
        2:{ change ((contents t).*1) with (names (contents t)). by rewrite contents_names. }
        rewrite <- (assoc_L (++)). cbn [app]. do 2 f_equal.
        f_equal. unfold col_new. by rewrite col_extend_iter.
      + unfold tbl_set. rewrite dset_fresh, fmap_app by done. rewrite <- (assoc_L (++)). done.
  Qed.

  Lemma transpose_spec first c rest :
    0 < ps →
    let t : table N A T := (first, c) :: rest in
    let rs := rows none (contents t) in
    NoDup (first :: map (λ r, as_key (hd none r)) rs) →
    ∃ t', transpose ty none ps name_val as_key t = Ok t' ∧
      contents t' = (first, map name_val rest.*1) :: map (λ r, (as_key (hd none r), tl r)) rs.
  Proof.
    intros Hps t rs Hnd. unfold transpose, t at 1. rewrite tbl_rows_spec. cbn [res_map].
    eexists. split; [done|]. fold t. fold rs. rewrite transpose_fold; [|done| |].
    - unfold tbl_set. rewrite contents_dset. cbn [contents map dset app]. do 2 f_equal.
      unfold col_new. by rewrite col_extend_iter.
    - apply list.Forall_forall. intros r (i & -> & _)%elem_of_list_fmap. done.
    - done.
  Qed.
End transpose.

Section pivot.
  Context {A T : Type} `{EqDecision T} (ty : A → T) (none : A) (ps : Z).
  Context (name_val : string → A) (np_array : list A → list A) (limit : Z).
  Notation tbl := (table string A T).

  (** the value of a row with the names [ns] *)
  Definition fld (ns : list string) (r : list A) (k : string) : A := default none (dget (zip ns r) k).
  (** [d] has the columns [ns] with the rows [rs] *)
  Definition holds_rows (ns : list string) (d : list (string * list A)) (rs : list (list A)) : Prop :=
    d.*1 = ns ∧ ∀ k, k ∈ ns → dget d k = Some (map (λ r, fld ns r k) rs).

  Lemma add_to_keys (d : list (string * list A)) n vs : n ∈ d.*1 → (add_to d n vs).*1 = d.*1.
  Proof. intros H. unfold add_to. rewrite dset_keys. by rewrite decide_True. Qed.
  Lemma add_to_get (d : list (string * list A)) n vs k :
    dget (add_to d n vs) k = if decide (k = n) then Some (dget_or d n [] ++ vs) else dget d k.
  Proof. unfold add_to. by rewrite dget_dset. Qed.

  Lemma keep_fold {B} (f : B → list A) (l : list (string * B)) (d : list (string * list A)) :
    NoDup l.*1 → (∀ n, n ∈ l.*1 → n ∈ d.*1) →
    let d' := fold_left (λ d p, add_to d p.1 (f p.2)) l d in
    d'.*1 = d.*1 ∧
    ∀ k, dget d' k = match dget l k with Some v => Some (dget_or d k [] ++ f v) | None => dget d k end.
  Proof.
    revert d. induction l as [|[n v] l IH]; intros d Hnd Hin; cbn [fold_left]; [done|].
    apply list.NoDup_cons in Hnd as [Hn Hnd]. cbn [fst snd] in *.
    assert (n ∈ d.*1) as Hnin by (apply Hin; left).
    destruct (IH (add_to d n (f v)) Hnd) as [H1 H2].
    { intros m Hm. rewrite add_to_keys by done. apply Hin. by right. }
    cbv zeta in *. split; [by rewrite H1, add_to_keys|]. intros k. rewrite H2. cbn [dget].
    destruct (decide (k = n)) as [->|Hk].
    - assert (dget l n = None) as -> by (by apply dget_None). rewrite add_to_get. by rewrite decide_True.
    - destruct (dget l k) eqn:E.
      + unfold dget_or at 1. rewrite add_to_get, decide_False by done. done.
      + rewrite add_to_get. by rewrite decide_False.
  Qed.

  Lemma value_fold cn vn (l : list (string * A)) (d : list (string * list A)) :
    cn ∈ d.*1 → vn ∈ d.*1 → cn ≠ vn →
    let d' := fold_left (λ d p, add_to (add_to d cn [name_val p.1]) vn [p.2]) l d in
    d'.*1 = d.*1 ∧ dget d' cn = Some (dget_or d cn [] ++ map (λ p, name_val p.1) l) ∧
    dget d' vn = Some (dget_or d vn [] ++ map (λ p, p.2) l) ∧
    ∀ k, k ≠ cn → k ≠ vn → dget d' k = dget d k.
  Proof.
    intros Hc Hv Hcv. revert d Hc Hv. induction l as [|[n v] l IH]; intros d Hc Hv; cbn [fold_left].
    - cbn [map]. rewrite !app_nil_r. split; [done|]. unfold dget_or.
      destruct (dget_in d cn Hc) as [x ->]. destruct (dget_in d vn Hv) as [y ->]. done.
    - cbn [fst snd]. set (d1 := add_to (add_to d cn [name_val n]) vn [v]).
      assert (d1.*1 = d.*1) as K1. { unfold d1. rewrite !add_to_keys; try done. by rewrite add_to_keys. }
      destruct (IH d1) as (H1 & H2 & H3 & H4); [by rewrite K1..|]. cbv zeta in *.
      assert (dget d1 cn = Some (dget_or d cn [] ++ [name_val n])) as E1.
      { unfold d1. rewrite add_to_get, decide_False by done. rewrite add_to_get. by rewrite decide_True. }
      assert (dget d1 vn = Some (dget_or d vn [] ++ [v])) as E2.
      { unfold d1. rewrite add_to_get, decide_True by done. unfold dget_or at 1.
        rewrite add_to_get, decide_False by done. done. }
      split; [by rewrite H1|]. split_and!.
      + rewrite H2. unfold dget_or at 1. rewrite E1. cbn [from_option map]; unfold id. by rewrite <- (assoc_L (++)).
      + rewrite H3. unfold dget_or at 1. rewrite E2. cbn [from_option map]; unfold id. by rewrite <- (assoc_L (++)).
      + intros k Hkc Hkv. rewrite H4 by done. unfold d1. rewrite add_to_get, decide_False by done.
        rewrite add_to_get. by rewrite decide_False.
  Qed.

  Lemma map_fst_map' {V W} (f : string → V → W) (d : list (string * V)) :
    (map (λ c, (c.1, f c.1 c.2)) d).*1 = d.*1.
  Proof. induction d as [|[n l] d IH]; [done|]. cbn [map]. rewrite !fmap_cons. by rewrite IH. Qed.
  Lemma dget_map' {V W} (f : string → V → W) (d : list (string * V)) k :
    dget (map (λ c, (c.1, f c.1 c.2)) d) k = f k <$> dget d k.
  Proof.
    induction d as [|[n l] d IH]; [done|]. cbn [map dget fst snd].
    destruct (decide (k = n)) as [->|]; [done|]. apply IH.
  Qed.

  Section names.
    Context (columns keep : list string) (cn vn : string).
    Notation ns := (keep ++ [cn; vn]).
    Context (Hns : NoDup ns) (Hps : 0 < ps).

    (** the rows that one row becomes *)
    Definition out_rows (row : list A) : list (list A) :=
      map (λ cv, take (length keep) row ++ [name_val cv.1; cv.2]) (zip columns (drop (length keep) row)).

    Lemma dget_zip_app_l (l1 l2 : list string) (r1 r2 : list A) k :
      length l1 = length r1 → k ∈ l1 → dget (zip (l1 ++ l2) (r1 ++ r2)) k = dget (zip l1 r1) k.
    Proof.
      revert r1. induction l1 as [|a l1 IH]; intros r1 Hl Hk; [by apply elem_of_nil in Hk|].
      destruct r1 as [|b r1]; [done|]. cbn [app zip_with dget]. destruct (decide (k = a)) as [->|Hka]; [done|].
      apply IH; [by injection Hl|]. apply elem_of_cons in Hk as [->|]; done.
    Qed.
    Lemma dget_zip_app_r (l1 l2 : list string) (r1 r2 : list A) k :
      length l1 = length r1 → k ∉ l1 → dget (zip (l1 ++ l2) (r1 ++ r2)) k = dget (zip l2 r2) k.
    Proof.
      revert r1. induction l1 as [|a l1 IH]; intros r1 Hl Hk; destruct r1 as [|b r1]; try done.
      cbn [app zip_with dget]. apply not_elem_of_cons in Hk as [Hka Hk].
      rewrite decide_False by done. apply IH; [by injection Hl|done].
    Qed.

    Lemma names_facts : cn ∉ keep ∧ vn ∉ keep ∧ cn ≠ vn ∧ NoDup keep.
    Proof.
      apply NoDup_app in Hns as (H1 & H2 & H3). split_and!; [| | |done].
      - intros H. apply (H2 cn H). by left.
      - intros H. apply (H2 vn H). right. by left.
      - apply list.NoDup_cons in H3 as [H3 _]. intros ->. apply H3. by left.
    Qed.
    Lemma fld_cn ks x y : length ks = length keep → fld ns (ks ++ [x; y]) cn = x.
    Proof.
      intros H. destruct names_facts as (H1 & H2 & H3 & H4). unfold fld. rewrite dget_zip_app_r by done.
      cbn [zip_with dget]. by rewrite decide_True.
    Qed.
    Lemma fld_vn ks x y : length ks = length keep → fld ns (ks ++ [x; y]) vn = y.
    Proof.
      intros H. destruct names_facts as (H1 & H2 & H3 & H4). unfold fld. rewrite dget_zip_app_r by done.
      cbn [zip_with dget]. rewrite decide_False by congruence. by rewrite decide_True.
    Qed.
    Lemma fld_keep ks x y k : length ks = length keep → k ∈ keep →
      fld ns (ks ++ [x; y]) k = default none (dget (zip keep ks) k).
    Proof. intros H Hk. unfold fld. by rewrite dget_zip_app_l. Qed.

    Lemma pt_row_spec news rs row :
      length row = (length keep + length columns)%nat → holds_rows ns news rs →
      holds_rows ns (pt_row name_val columns keep cn vn news row) (rs ++ out_rows row).
    Proof.
      intros Hlen [Hk Hg]. destruct names_facts as (Hc & Hv & Hcv & Hkeep). unfold pt_row, out_rows.
      set (keeps := take (length keep) row). set (tr := drop (length keep) row).
      assert (length keeps = length keep) as Lk by (unfold keeps; rewrite take_length; lia).
      assert (length tr = length columns) as Lt by (unfold tr; rewrite drop_length; lia).
      assert ((zip keep keeps).*1 = keep) as Zk by (apply fst_zip; lia).
      destruct (keep_fold (replicate (length tr)) (zip keep keeps) news) as [H1 H2].
      { by rewrite Zk. }
      { intros n. rewrite Zk, Hk. intros Hn. apply elem_of_app. by left. }
      cbv zeta in H1, H2. set (n1 := fold_left _ (zip keep keeps) news) in *.
      destruct (value_fold cn vn (zip columns tr) n1) as (H3 & H4 & H5 & H6); [| |done|].
      { rewrite H1, Hk. apply elem_of_app. right. by left. }
      { rewrite H1, Hk. apply elem_of_app. right. right. by left. }
      cbv zeta in *. set (n2 := fold_left _ (zip columns tr) n1) in *. split; [by rewrite H3, H1|].
      assert (∀ k, k ∉ keep → dget n1 k = dget news k) as Hout.
      { intros k Hkk. rewrite H2. destruct (dget (zip keep keeps) k) eqn:E; [|done].
        apply dget_elem in E. by rewrite Zk in E. }
      intros k Hkin. rewrite map_app, map_map.
      destruct (decide (k = cn)) as [->|Hkc].
      { rewrite H4. unfold dget_or. rewrite Hout, Hg by done. cbn [from_option]; unfold id. do 2 f_equal.
        apply map_ext. intros p. by rewrite fld_cn. }
      destruct (decide (k = vn)) as [->|Hkv].
      { rewrite H5. unfold dget_or. rewrite Hout, Hg by done. cbn [from_option]; unfold id. do 2 f_equal.
        apply map_ext. intros p. by rewrite fld_vn. }
      assert (k ∈ keep) as Hkk.
      { apply elem_of_app in Hkin as [?|Hkin]; [done|].
        apply elem_of_cons in Hkin as [->|Hkin]; [done|]. by apply elem_of_list_singleton in Hkin as ->. }
      rewrite H6 by done. rewrite H2.
      destruct (dget_in (zip keep keeps) k) as [v Ev]; [by rewrite Zk|]. rewrite Ev.
      unfold dget_or. rewrite Hg by done. cbn [from_option]; unfold id. do 2 f_equal.
      transitivity (map (λ _ : string * A, v) (zip columns tr)).
      - assert (length tr = length (zip columns tr)) as -> by (rewrite zip_with_length; lia).
        generalize (zip columns tr). intros l. induction l as [|p l IH]; [done|]. cbn [length replicate map]. by rewrite IH.
      - apply map_ext. intros p. rewrite fld_keep by done. by rewrite Ev.
    Qed.

    Lemma holds_nil d : d.*1 = ns → holds_rows ns (map (λ c : string * list A, (c.1, [])) d) [].
    Proof.
      intros H. split.
      - rewrite <- H. clear. induction d as [|[n l] d IH]; [done|]. cbn [map]. rewrite !fmap_cons. by rewrite IH.
      - intros k Hk. rewrite <- H in Hk. cbn [map]. clear H. induction d as [|[n l] d IH]; [by apply elem_of_nil in Hk|].
        cbn [map dget fst]. destruct (decide (k = n)); [done|]. apply IH.
        rewrite fmap_cons in Hk. by apply elem_of_cons in Hk as [->|Hk].
    Qed.
    Lemma flush_spec new news rs rs' :
      holds_rows ns (contents new) rs → holds_rows ns news rs' →
      ∃ new', flush ty ps new news = Ok new' ∧ holds_rows ns (contents new') (rs ++ rs').
    Proof.
      intros [H1 H2] [H3 H4].
      assert (new.*1 = ns) as Hn by (rewrite <- contents_names; done).
      destruct (extend_cols_spec ty ps Hps news new) as (t' & E & C).
      { by rewrite H3. } { by rewrite Hn. } { by rewrite H3, Hn. }
      exists t'. unfold flush. rewrite E. split; [done|]. rewrite C. split.
      - rewrite <- H1. apply (map_fst_map' (λ n l, l ++ default [] (dget news n))).
      - intros k Hk. rewrite (dget_map' (λ n l, l ++ default [] (dget news n))). rewrite H2, H4 by done.
        by rewrite map_app.
    Qed.

    Lemma pt_loop_spec rs : ∀ ix new news rf rp,
      Forall (λ r, length r = (length keep + length columns)%nat) rs →
      holds_rows ns (contents new) rf → holds_rows ns news rp →
      ∃ new' news' a b, pt_loop ty ps name_val limit columns keep cn vn ix new news rs = Ok (new', news') ∧
        a ++ b = rf ++ rp ++ concat (map out_rows rs) ∧
        holds_rows ns (contents new') a ∧ holds_rows ns news' b.
    Proof using Hns Hps.
      induction rs as [|r rs IH]; intros ix new news rf rp Hl Hf Hp; cbn [pt_loop].
      - exists new, news, rf, rp. cbn [map concat]. by rewrite app_nil_r.
      - apply list.Forall_cons in Hl as [Hr Hl]. pose proof (pt_row_spec _ _ _ Hr Hp) as Hp'.
        set (news1 := pt_row name_val columns keep cn vn news r) in *.
        destruct (ix mod limit =? 0).
        + destruct (flush_spec _ _ _ _ Hf Hp') as (new1 & E & H1). rewrite E. cbn [res_bind].
          destruct (IH (ix + 1) new1 (map (λ c, (c.1, [])) news1) _ [] Hl H1) as (new' & news' & a & b & E1 & E2 & E3 & E4).
          { apply holds_nil. apply Hp'. }
          exists new', news', a, b. split; [done|]. split; [|done]. rewrite E2. cbn [map concat app].
          by rewrite <- !(assoc_L (++)).
        + destruct (IH (ix + 1) new news1 _ _ Hl Hf Hp') as (new' & news' & a & b & E1 & E2 & E3 & E4).
          exists new', news', a, b. split; [done|]. split; [|done]. rewrite E2. cbn [map concat].
          by rewrite <- !(assoc_L (++)).
    Qed.
  End names.

  (** ** back to rows *)
  Lemma fld_all ns r : NoDup ns → length r = length ns → map (fld ns r) ns = r.
  Proof.
    revert r. induction ns as [|n ns IH]; intros [|x r] Hnd Hl; try done. cbn [map].
    apply list.NoDup_cons in Hnd as [Hn Hnd]. f_equal.
    - unfold fld. cbn [zip_with dget]. by rewrite decide_True.
    - rewrite <- (IH r) at 2; [|done|by injection Hl]. apply map_ext_in. intros k Hk%elem_of_list_In.
      unfold fld. cbn [zip_with dget]. rewrite decide_False; [done|]. by intros ->.
  Qed.
  Lemma holds_rows_rows ns (d : view) rs :
    ns ≠ [] → NoDup ns → Forall (λ r, length r = length ns) rs → holds_rows ns d rs →
    rect (length rs) d ∧ rows none d = rs.
  Proof.
    intros Hne Hnd Hl [Hk Hg].
    assert (rect (length rs) d) as R.
    { apply list.Forall_forall. intros [n l] Hin. cbn [snd].
      assert (dget d n = Some l) as E by (apply dget_Some; [by rewrite Hk|done]).
      rewrite Hg in E. { injection E as <-. by rewrite map_length. }
      rewrite <- Hk. by apply (elem_of_list_fmap_1 fst) in Hin. }
    split; [done|]. unfold rows. rewrite (nrows_rect _ _ R). 2:{ intros ->. by apply Hne. }
    apply list_eq. intros i. destruct (decide (i < length rs)%nat) as [Hi|Hi].
    - rewrite list_lookup_fmap, lookup_seq_lt by done. cbn [fmap option_fmap option_map].
      destruct (lookup_lt_is_Some_2 rs i Hi) as [r Hr]. rewrite Hr. f_equal.
      transitivity (map (fld ns r) ns).
      2:{ apply fld_all; [done|]. by apply (proj1 (list.Forall_lookup _ _) Hl i r). }
      rewrite <- Hk at 2. change (d.*1) with (map fst d). rewrite map_map. unfold row.
      apply map_ext_in. intros [n l] Hin%elem_of_list_In. cbn [fst snd].
      assert (dget d n = Some l) as E by (apply dget_Some; [by rewrite Hk|done]).
      rewrite Hg in E. 2:{ rewrite <- Hk. by apply (elem_of_list_fmap_1 fst) in Hin. }
      injection E as <-.
      rewrite Nat.add_0_l.      assert (map (λ r, fld ns r n) rs !! i = Some (fld ns r n)) as ->; [|done].
      transitivity ((λ r, fld ns r n) <$> rs !! i); [apply list_lookup_fmap|by rewrite Hr].
    - rewrite (lookup_ge_None_2 rs) by lia. apply lookup_ge_None_2. rewrite map_length, seq_length. lia.
  Qed.

  Lemma rows_single (n : string) (l : list A) : rows none [(n, l)] = map (λ v, [v]) l.
  Proof.
    unfold rows, nrows, row. cbn [map list_max fold_right snd]. rewrite Nat.max_0_r.
    rewrite <- (at_seq none l) at 2. rewrite map_map. done.
  Qed.
  Lemma pt_rows_spec (t : tbl) (l : list string) :
    l ≠ [] → NoDup l → (∀ n, n ∈ l → n ∈ t.*1) →
    pt_rows ty none ps t l = Ok (rows none (map (λ n, (n, default [] (dget (contents t) n))) l)).
  Proof.
    intros Hne Hnd Hin. destruct l as [|n [|m l]]; [done| |].
    - unfold pt_rows. cbn [map]. rewrite rows_single.
      assert (n ∈ t.*1) as Hn by (apply Hin; by left).
      unfold tbl_getitem. cbn [omap list_omap forallb]. rewrite bool_decide_eq_true_2 by done. cbn [negb andb].
      rewrite contents_dget. destruct (dget_in t n Hn) as [c ->]. done.
    - unfold pt_rows. destruct (select_names ty ps t (n :: m :: l)) as (u & -> & Hu); [done|cbn; lia|done|].
      cbn [res_bind]. rewrite tbl_rows_spec, Hu. done.
  Qed.

  (** ** the whole function *)
  Lemma new_columns (l : list string) (d : tbl) : NoDup (d.*1 ++ l) →
    fold_left (λ new n, dset new n []) l d = d ++ map (λ n, (n, [])) l.
  Proof.
    revert d. induction l as [|n l IH]; intros d Hnd; cbn [fold_left map]; [by rewrite app_nil_r|].
    assert (n ∉ d.*1) as Hn. { intros H. apply NoDup_app in Hnd as (_ & H2 & _). apply (H2 n H). by left. }
    rewrite dset_fresh by done. rewrite IH. { by rewrite <- (assoc_L (++)). }
    rewrite fmap_app. by rewrite <- (assoc_L (++)).
  Qed.
  Lemma pivot_transpose_spec (t : tbl) columns keep column_name value_name cn vn :
    0 < ps → keep ++ columns ≠ [] → NoDup (keep ++ columns) → (∀ n, n ∈ keep ++ columns → n ∈ t.*1) →
    (if decide (column_name ∈ keep ++ columns) then unique_name column_name (keep ++ columns) else Some column_name) = Some cn →
    (if decide (value_name ∈ keep ++ columns ++ [cn]) then unique_name value_name (keep ++ columns) else Some value_name) = Some vn →
    NoDup (keep ++ [cn; vn]) →
    let sel := map (λ n, (n, default [] (dget (contents t) n))) (keep ++ columns) in
    let out := concat (map (out_rows columns keep) (rows none sel)) in
    (∀ k l, k ∈ keep ++ [cn; vn] → l `suffix_of` map (λ r, fld (keep ++ [cn; vn]) r k) out → np_array l = l) →
    ∃ t', pivot_transpose ty none ps name_val np_array limit t columns keep column_name value_name = Ok t' ∧
      names (contents t') = keep ++ [cn; vn] ∧ rect (length out) (contents t') ∧ rows none (contents t') = out.
  Proof.
    intros Hps Hne Hnd Hin Hcn Hvn Hns sel out Hnp. unfold pivot_transpose.
    assert (forallb (λ i, bool_decide (i ∈ t.*1)) columns = true) as ->.
    { apply forallb_in. intros n Hn. apply Hin. apply elem_of_app. by right. }
    assert (forallb (λ i, bool_decide (i ∈ t.*1)) keep = true) as ->.
    { apply forallb_in. intros n Hn. apply Hin. apply elem_of_app. by left. }
    rewrite bool_decide_eq_true_2 by (by apply NoDup_app in Hnd as (_ & _ & ?)). cbn [negb].
    rewrite Hcn, Hvn. rewrite pt_rows_spec by done. fold sel. cbn [res_bind].
    rewrite new_columns by done. cbn [app].
    assert (Forall (λ r, length r = (length keep + length columns)%nat) (rows none sel)) as Hlen.
    { apply list.Forall_forall. intros r (i & -> & _)%elem_of_list_fmap. unfold row, sel.
      by rewrite !map_length, app_length. }
    set (new := map (λ n, (n, [])) (keep ++ [cn; vn]) : tbl).
    assert (new.*1 = keep ++ [cn; vn]) as Hk.
    { unfold new. clear. induction (keep ++ [cn; vn]) as [|n l IH]; [done|]. cbn [map]. rewrite fmap_cons. by rewrite IH. }
    assert (holds_rows (keep ++ [cn; vn]) (contents new) []) as H0.
    { pose proof (holds_nil keep cn vn (contents new)) as H. unfold contents in H at 2. rewrite map_map in H.
      assert (contents new = map (λ c, (c.1, [])) new) as ->.
      { unfold contents. apply map_ext_in. intros [n c] Hi%elem_of_list_In. unfold new in Hi.
        apply elem_of_list_fmap in Hi as (? & [= -> ->] & _). done. }
      apply H. by rewrite <- Hk, <- contents_names. }
    destruct (pt_loop_spec columns keep cn vn Hns Hps (rows none sel) 1 new (map (λ c, (c.1, [])) new) [] [])
      as (new' & news' & a & b & E1 & E2 & E3 & E4); [done|done|..].
    { clear - Hk. split.
      - rewrite <- Hk. clear. induction new as [|[n c] d IH]; [done|]. cbn [map]. rewrite !fmap_cons. by rewrite IH.
      - intros k Hkin. rewrite <- Hk in Hkin. cbn [map]. clear Hk. induction new as [|[n c] d IH]; [by apply elem_of_nil in Hkin|].
        cbn [map dget fst]. destruct (decide (k = n)); [done|]. apply IH.
        rewrite fmap_cons in Hkin. by apply elem_of_cons in Hkin as [->|Hkin]. }
    rewrite E1. cbn [res_bind fst snd]. cbn [app] in E2. fold out in E2.
    assert (holds_rows (keep ++ [cn; vn]) (map (λ c, (c.1, np_array c.2)) news') b) as E5.
    { destruct E4 as [K G]. split.
      - rewrite <- K. apply (map_fst_map' (λ _ l, np_array l)).
      - intros k Hkin. rewrite (dget_map' (λ _ l, np_array l)). rewrite G by done. cbn [fmap option_fmap option_map]. f_equal.
        apply (Hnp k); [done|]. exists (map (λ r, fld (keep ++ [cn; vn]) r k) a). by rewrite <- map_app, E2. }
    destruct (flush_spec keep cn vn Hns Hps _ _ _ _ E3 E5) as (t' & E6 & E7). rewrite E2 in E7.
    exists t'. split; [done|]. split; [by destruct E7|]. apply (holds_rows_rows (keep ++ [cn; vn])); [by destruct keep|done| |done].
    apply list.Forall_forall. intros r Hr. unfold out in Hr. apply elem_of_list_In, in_concat in Hr as (l & Hl & Hr).
    apply in_map_iff in Hl as (row0 & <- & Hrow). unfold out_rows in Hr. apply in_map_iff in Hr as (cv & <- & _).
    rewrite !app_length, take_length. apply elem_of_list_In in Hrow.
    pose proof (proj1 (list.Forall_forall _ _) Hlen row0 Hrow) as L. cbn beta in L. cbn [length]. lia.
  Qed.
End pivot.

Lemma fld_at {A} (none : A) ns r k i : NoDup ns → ns !! i = Some k → fld none ns r k = default none (r !! i).
Proof.
  revert r i. induction ns as [|n ns IH]; intros r i Hnd Hi; [done|].
  apply list.NoDup_cons in Hnd as [Hn Hnd]. destruct r as [|x r]; [done|]. unfold fld. cbn [zip_with dget].
  destruct i as [|i].
  - injection Hi as ->. by rewrite decide_True.
  - change (ns !! i = Some k) in Hi. rewrite decide_False.
    2:{ intros ->. apply Hn. by eapply elem_of_list_lookup_2. }
    change (default none ((x :: r) !! S i)) with (default none (r !! i)). by apply IH.
Qed.
Lemma pivot_transpose_final {A T} `{EqDecision T} (ty : A → T) none (ps : Z) name_val np_array limit
    (t : table string A T) columns keep column_name value_name :
  0 < ps → keep ++ columns ≠ [] → NoDup (keep ++ columns) → (∀ n, n ∈ keep ++ columns → n ∈ t.*1) →
  column_name ∉ keep ++ columns → value_name ∉ keep ++ columns → column_name ≠ value_name →
  let sel := map (λ n, (n, default [] (dget (contents t) n))) (keep ++ columns) in
  let out := concat (map (unpivot name_val (length keep) columns) (rows none sel)) in
  (∀ i l, l `suffix_of` map (λ r, default none (r !! i)) out → np_array l = l) →
  ∃ t', pivot_transpose ty none ps name_val np_array limit t columns keep column_name value_name = Ok t' ∧
    names (contents t') = keep ++ [column_name; value_name] ∧
    rect (length out) (contents t') ∧ rows none (contents t') = out.
Proof.
  intros Hps Hne Hnd Hin Hc Hv Hcv sel out Hnp.
  assert (NoDup (keep ++ [column_name; value_name])) as Hns.
  { apply NoDup_app. split; [by apply NoDup_app in Hnd as [? _]|]. split.
    - intros n Hn [->|[->|[]%elem_of_nil]%elem_of_cons]%elem_of_cons.
      + apply Hc. apply elem_of_app. by left.
      + apply Hv. apply elem_of_app. by left.
    - apply list.NoDup_cons. split; [by intros ->%elem_of_list_singleton|]. apply NoDup_singleton. }
  apply (pivot_transpose_spec ty none ps name_val np_array limit t columns keep column_name value_name column_name value_name);
    try done.
  - by rewrite decide_False.
  - rewrite decide_False; [done|]. rewrite (assoc_L (++)). intros [H|H]%elem_of_app; [done|].
    by apply elem_of_list_singleton in H.
  - intros k l [i Hi]%elem_of_list_lookup_1 Hl. apply (Hnp i).
    erewrite map_ext; [exact Hl|]. intros r. symmetry. by apply fld_at.
Qed.

(** ** what goes wrong *)
Definition cell_cols (cols : list (string * list cell)) : table string cell ctype := tbl_of_columns cty 4 cols.
Lemma transpose_duplicates :
  ∃ (t t' : table cell cell ctype) x,
    transpose cty CNone 4 id id t = Ok t' ∧ x ∈ concat (map snd (contents t)) ∧
    x ∉ concat (map snd (contents t')).
Proof.
  exists (tbl_of_columns cty 4 [(CStr "a", [CInt 1; CInt 1]); (CStr "b", [CInt 2; CInt 3])]).
  eexists _, (CInt 2). split; [by vm_compute|]. split; vm_compute; set_solver.
Qed.
Lemma pivot_text :
  ∃ t t', pivot_transpose cty CNone 4 CStr np_array_of 100 t ["b"; "c"]%string ["a"]%string "transpose" "value" = Ok t' ∧
    contents t = [("a", [CInt 1]); ("b", [CInt 2]); ("c", [CStr "x"])]%string ∧
    contents t' = [("a", [CInt 1; CInt 1]); ("transpose", [CStr "b"; CStr "c"]); ("value", [CStr "2"; CStr "x"])]%string.
Proof. exists (cell_cols [("a", [CInt 1]); ("b", [CInt 2]); ("c", [CStr "x"])]%string). eexists. by vm_compute. Qed.
Lemma pivot_overlap :
  ∃ t t', pivot_transpose cty CNone 4 CStr np_array_of 100 t ["a"; "b"]%string ["a"]%string "transpose" "value" = Ok t' ∧
    contents t = [("a", [CInt 1]); ("b", [CInt 2])]%string ∧
    contents t' = [("a", [CInt 1]); ("transpose", [CStr "a"]); ("value", [CInt 2])]%string.
Proof. exists (cell_cols [("a", [CInt 1]); ("b", [CInt 2])]%string). eexists. by vm_compute. Qed.
Lemma pivot_same_name :
  ∃ t t', pivot_transpose cty CNone 4 CStr id 100 t ["b"]%string ["a"]%string "value" "value" = Ok t' ∧
    contents t = [("a", [CInt 1]); ("b", [CInt 2])]%string ∧
    contents t' = [("a", [CInt 1]); ("value", [CStr "b"; CInt 2])]%string.
Proof. exists (cell_cols [("a", [CInt 1]); ("b", [CInt 2])]%string). eexists. by vm_compute. Qed.
