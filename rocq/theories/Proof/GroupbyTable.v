(** groupby: from pages to rows, and the whole function. *)
From stdpp Require Import strings.
From Verif.Spec Require Import Groupby.
From Verif.Model Require Import Groupby.
From Verif.Proof Require Import SliceLemmas ColumnRead DictLemmas TableBase FilterProofs JoinBase GroupbyProofs.
Local Open Scope Z_scope.

Section table.
  Context {T : Type} `{EqDecision T} (ty : pyval → T) (ps : Z).
  Notation col := (column pyval T).
  Notation tbl := (table string pyval T).

  Definition p0 : page pyval T := MkPage [] [].

  Lemma layout_iter (c : col) : length (col_iter c) = sum_list (layout c).
  Proof using Type. induction c as [|p c IH]; [done|]. unfold col_iter in *. cbn. rewrite app_length. by f_equal. Qed.

  Lemma zip_lists_spec {X} (x0 : X) n (its : list (list X)) :
    its ≠ [] → Forall (λ l, length l = n) its → zip_lists its = map (λ i, map (at_ x0 i) its) (seq 0 n).
  Proof using Type.
    intros Hne Hl. unfold zip_lists. destruct its as [|l its]; [done|].
    pose proof (proj1 (proj1 (list.Forall_cons _ _ _) Hl)) as Hl0. cbn beta in Hl0.
    change (default [] (head (l :: its))) with l. rewrite Hl0. by apply iterate_rows_spec.
  Qed.

  Lemma iterate_pages_spec n (pages : list (page pyval T)) :
    pages ≠ [] → Forall (λ p, length (pdata p) = n) pages → Forall (λ p, Forall (λ v, native v = true) (pdata p)) pages →
    iterate_pages pages = Ok (map (λ i, map (at_ VNone i) (map pdata pages)) (seq 0 n)).
  Proof using Type.
    intros Hne Hl Hn. unfold iterate_pages.
    replace (forallb _ pages) with true.
    - f_equal. apply zip_lists_spec; [by destruct pages|]. by apply Forall_fmap.
    - symmetry. apply forallb_forall. intros p Hp. apply forallb_forall. intros v Hv.
      pose proof (proj1 (list.Forall_forall _ _) Hn p (proj2 (elem_of_list_In _ _) Hp)) as H1. cbn beta in H1.
      pose proof (proj1 (list.Forall_forall _ _) H1 v (proj2 (elem_of_list_In _ _) Hv)) as H2. done.
  Qed.

  Definition rows_at (cols : list col) (n : nat) : list (list pyval) :=
    map (λ i, map (at_ VNone i) (map col_iter cols)) (seq 0 n).

  Lemma group_pages_spec keys functions cns sh (cols : list col) agg :
    cols ≠ [] → Forall (λ c, layout c = sh) cols → Forall (λ c, Forall (λ v, native v = true) (col_iter c)) cols →
    group_pages keys functions cns agg (zip_lists cols) =
    group_rows keys functions cns agg (rows_at cols (sum_list sh)).
  Proof using Type.
    revert cols agg. induction sh as [|s sh IH]; intros cols agg Hne Hl Hn.
    - assert (Hlen : Forall (λ c : col, length c = 0%nat) cols).
      { eapply list.Forall_impl; [exact Hl|]. intros c Hc. cbn beta in Hc. by destruct c. }
      rewrite (zip_lists_spec p0 0) by done. done.
    - assert (Hlen : Forall (λ c : col, length c = S (length sh)) cols).
      { eapply list.Forall_impl; [exact Hl|]. intros c Hc. cbn beta in Hc.
        apply (f_equal length) in Hc. unfold layout in Hc. by rewrite map_length in Hc. }
      assert (Hsub : Forall (λ c : col, length c = length sh) (map (drop 1) cols)) by (by apply drop1_length).
      rewrite (zip_lists_spec p0 (S (length sh))) by done. cbn [seq map group_pages].
      rewrite (iterate_pages_spec s); cycle 1.
      { by destruct cols. }
      { apply Forall_fmap. eapply list.Forall_impl; [exact Hl|]. intros c Hc. cbn beta in Hc.
        destruct c as [|p c]; [done|]. by injection Hc. }
      { apply Forall_fmap. eapply list.Forall_impl; [exact Hn|]. intros c Hc. cbn beta in Hc.
        destruct c as [|p c]; [by constructor|]. unfold col_iter in Hc. cbn in Hc.
        apply Forall_app in Hc as [Hc _]. done. }
      assert (Hz : map (λ i : nat, map (at_ p0 i) cols) (seq 1 (length sh)) = zip_lists (map (drop 1) cols)).
      { rewrite (zip_lists_spec p0 (length sh)); [|by destruct cols|done].
        rewrite <- seq_shift, map_map. apply map_ext. intros i. symmetry. apply at_drop. }
      rewrite Hz. cbn [res_bind].
      assert (Hsplit : rows_at cols (sum_list (s :: sh)) =
        map (λ i, map (at_ VNone i) (map pdata (map (at_ p0 0) cols))) (seq 0 s) ++
        rows_at (map (drop 1) cols) (sum_list sh)).
      { unfold rows_at. change (sum_list (s :: sh)) with (s + sum_list sh)%nat. rewrite seq_app, map_app. f_equal.
        - apply list_fmap_ext. intros _ i [_ Hi]%elem_of_list_lookup_2%elem_of_seq. cbn in Hi.
          rewrite !map_map. apply list_fmap_ext. intros _ c Hc%elem_of_list_lookup_2.
          pose proof (proj1 (list.Forall_forall _ _) Hl c Hc) as Hc'. cbn beta in Hc'.
          destruct c as [|p c]; [done|]. injection Hc' as Hp _. unfold at_, col_iter. cbn.
          by rewrite lookup_app_l by lia.
        - rewrite Nat.add_0_l. rewrite <- (fmap_add_seq s 0 (sum_list sh)) || idtac.
          apply list_eq. intros i.
          assert (HL : ∀ X Y (g : X → Y) k j, map g k !! j = g <$> k !! j) by (intros; apply list_lookup_fmap).
          rewrite !HL. destruct (decide (i < sum_list sh)%nat) as [Hi|Hi].
          + rewrite !lookup_seq_lt by done. cbn [fmap option_fmap option_map]. f_equal. rewrite !map_map. apply list_fmap_ext.
            intros _ c Hc%elem_of_list_lookup_2.
            pose proof (proj1 (list.Forall_forall _ _) Hl c Hc) as Hc'. cbn beta in Hc'.
            destruct c as [|p c]; [done|]. injection Hc' as Hp _. unfold at_, col_iter. cbn.
            rewrite lookup_app_r by lia. f_equal. f_equal. lia.
          + rewrite !lookup_seq_ge by lia. done. }
      rewrite Hsplit, group_rows_app.
      destruct (group_rows _ _ _ agg (map _ (seq 0 s))) as [agg'|e]; [|done]. cbn [res_bind].
      apply IH.
      + by destruct cols.
      + apply Forall_fmap. eapply list.Forall_impl; [exact Hl|]. intros c Hc. cbn beta in Hc.
        destruct c as [|p c]; [done|]. by injection Hc.
      + apply Forall_fmap. eapply list.Forall_impl; [exact Hn|]. intros c Hc. cbn beta in Hc.
        destruct c as [|p c]; [by constructor|]. unfold col_iter in *. cbn in Hc.
        apply Forall_app in Hc as [_ Hc]. done.
  Qed.

  (** ** only keys *)
  Lemma index_table_distinct rs : index_table rs = distinct rs.
  Proof using Type.
    unfold index_table. induction rs as [|r rs IH] using rev_ind; [done|].
    rewrite fold_left_app. cbn [fold_left]. rewrite IH, distinct_snoc. done.
  Qed.

  Lemma mapM_Some_map {X Y} (f : X → option Y) (g : X → Y) l : (∀ x, x ∈ l → f x = Some (g x)) → mapM f l = Some (map g l).
  Proof using Type.
    intros H. apply mapM_Some_2. induction l as [|x l IH]; [constructor|]. cbn [map]. constructor.
    - apply H. by left.
    - apply IH. intros y Hy. apply H. by right.
  Qed.

  Lemma index_page_spec sh (cols : list col) i s :
    cols ≠ [] → Forall (λ c, layout c = sh) cols → Forall (λ c, Forall (λ v, native v = true) (col_iter c)) cols →
    sh !! i = Some s →
    index_page cols i = Ok (map (λ r, map (λ c, at_ VNone r (pdata (at_ p0 i c))) cols) (seq 0 s)).
  Proof using Type.
    intros Hne Hl Hn Hi. unfold index_page.
    assert (Hp : ∀ c, c ∈ cols → ∃ p, c !! i = Some p ∧ at_ p0 i c = p ∧ length (pdata p) = s).
    { intros c Hc. pose proof (proj1 (list.Forall_forall _ _) Hl c Hc) as Hc'. cbn beta in Hc'.
      rewrite <- Hc' in Hi. unfold layout in Hi.
      assert (HL : ∀ X Y (g : X → Y) k j, map g k !! j = g <$> k !! j) by (intros; apply list_lookup_fmap).
      rewrite HL in Hi. apply fmap_Some in Hi as (p & Hp1 & ->). exists p. split_and!; [done| |done].
      exact (f_equal (default p0) Hp1). }
    rewrite (mapM_Some_map _ (at_ p0 i)); cycle 1.
    { intros c Hc. destruct (Hp c Hc) as (p & Hp1 & Hat & _). rewrite Hat. exact Hp1. }
    replace (forallb _ (map (at_ p0 i) cols)) with true; cycle 1.
    { symmetry. apply forallb_forall. intros p Hpin%elem_of_list_In. apply forallb_forall. intros v Hv%elem_of_list_In.
      apply elem_of_list_fmap in Hpin as (c & -> & Hc).
      pose proof (proj1 (list.Forall_forall _ _) Hn c Hc) as H1. cbn beta in H1.
      apply (proj1 (list.Forall_forall _ _) H1 v). unfold col_iter.
      destruct (Hp c Hc) as (p & Hp1 & Hat & _). rewrite Hat in Hv.
      apply elem_of_list_In, in_concat. exists (pdata p). split; [|by apply elem_of_list_In].
      apply in_map, elem_of_list_In. by eapply elem_of_list_lookup_2. }
    cbn [negb].
    assert (Hlen : length (default [] (pdata <$> head (map (at_ p0 i) cols))) = s).
    { destruct cols as [|c cols]; [done|]. cbn. destruct (Hp c) as (p & Hp1 & Hat & Hp2); [by left|]. by rewrite Hat. }
    rewrite Hlen.
    rewrite (mapM_Some_map _ (λ r, map (λ c, at_ VNone r (pdata (at_ p0 i c))) cols)); [done|].
    intros r [_ Hr]%elem_of_seq. cbn in Hr.
    rewrite (mapM_Some_map _ (λ p, at_ VNone r (pdata p))); [by rewrite map_map|].
    intros p (c & -> & Hc)%elem_of_list_fmap. destruct (Hp c Hc) as (p & Hp1 & Hat & Hp2). rewrite Hat. unfold at_.
    destruct (lookup_lt_is_Some_2 (pdata p) r) as [x ->]; [lia|done].
  Qed.

  Lemma at_page sh (c : col) pre i s r :
    layout c = sh → sh !! i = Some s → (r < s)%nat → pre = sum_list (take i sh) →
    at_ VNone r (pdata (at_ p0 i c)) = at_ VNone (pre + r) (col_iter c).
  Proof using Type.
    intros <-. revert c pre. induction i as [|i IH]; intros [|p c] pre Hs Hr ->; try done.
    - cbn in Hs. injection Hs as <-. unfold at_, col_iter. cbn. by rewrite lookup_app_l by lia.
    - change (layout (p :: c) !! S i) with (layout c !! i) in Hs.
      change (at_ p0 (S i) (p :: c)) with (at_ p0 i c). rewrite (IH c _ Hs Hr eq_refl).
      change (take (S i) (layout (p :: c))) with (length (pdata p) :: take i (layout c)).
      change (sum_list (length (pdata p) :: take i (layout c))) with (length (pdata p) + sum_list (take i (layout c)))%nat.
      change (col_iter (p :: c)) with (pdata p ++ col_iter c).
      unfold at_. rewrite lookup_app_r by lia. f_equal. f_equal. lia.
  Qed.

  Lemma index_rows_spec sh (cols : list col) m :
    cols ≠ [] → Forall (λ c, layout c = sh) cols → Forall (λ c, Forall (λ v, native v = true) (col_iter c)) cols →
    (m <= length sh)%nat → index_rows cols (seq 0 m) = Ok (rows_at cols (sum_list (take m sh))).
  Proof using Type.
    intros Hne Hl Hn.
    assert (Happ : ∀ a b, index_rows cols (a ++ b) =
      res_bind (index_rows cols a) (λ rs, res_map (app rs) (index_rows cols b))).
    { intros a b. induction a as [|i a IH]; cbn [app index_rows].
      - cbn. by destruct (index_rows cols b).
      - rewrite IH. destruct (index_page cols i); [|done]. cbn. destruct (index_rows cols a); [|done]. cbn.
        destruct (index_rows cols b); [|done]. cbn. by rewrite app_assoc. }
    induction m as [|m IH]; intros Hm; [done|].
    rewrite seq_S, Happ, IH by lia. cbn [res_bind index_rows Nat.add].
    destruct (lookup_lt_is_Some_2 sh m) as [s Hs]; [lia|].
    rewrite (index_page_spec sh _ _ s) by done. cbn [res_bind res_map]. f_equal.
    rewrite (take_S_r _ _ _ Hs), sum_list_with_app || rewrite (take_S_r _ _ _ Hs), sum_list_app.
    change (sum_list [s]) with (s + 0)%nat. rewrite Nat.add_0_r, app_nil_r.
    unfold rows_at. rewrite seq_app, map_app. f_equal. cbn [Nat.add].
    apply list_eq. intros i.
    assert (HL : ∀ X Y (g : X → Y) k j, map g k !! j = g <$> k !! j) by (intros; apply list_lookup_fmap).
    rewrite !HL. destruct (decide (i < s)%nat) as [Hi|Hi].
    - rewrite !lookup_seq_lt by done. cbn [fmap option_fmap option_map]. f_equal. rewrite map_map.
      apply list_fmap_ext. intros _ c Hc%elem_of_list_lookup_2.
      pose proof (proj1 (list.Forall_forall _ _) Hl c Hc) as Hc'. cbn beta in Hc'. by eapply at_page.
    - rewrite !lookup_seq_ge by lia. done.
  Qed.

  (** ** the result table *)
  Lemma get_pages_iter values : col_iter (get_pages ty ps values) = values.
  Proof using Type.
    unfold get_pages. transitivity ([] ++ values); [|done]. generalize (@nil pyval).
    induction values as [|v values IH]; intros s; cbn [get_pages_loop].
    - rewrite app_nil_r. destruct s; [done|]. unfold col_iter. cbn. by rewrite app_nil_r.
    - case_match.
      + unfold col_iter in *. cbn. rewrite IH. by rewrite <- app_assoc.
      + rewrite IH. by rewrite <- app_assoc.
  Qed.

  Lemma make_table_contents ns rs :
    NoDup ns → contents (make_table ty ps ns rs) = zip ns (map (col_at rs) (seq 0 (length ns))).
  Proof using Type.
    intros Hnd. unfold make_table.
    assert (H : ∀ k (d : tbl), NoDup ns → (∀ n, n ∈ ns → n ∉ d.*1) →
      contents (fold_left (λ t p, dset t p.2 (get_pages ty ps (col_at rs p.1))) (zip (seq k (length ns)) ns) d)
      = contents d ++ zip ns (map (col_at rs) (seq k (length ns)))).
    { clear Hnd. induction ns as [|n ns IH]; intros k d Hnd Hd; cbn [length seq zip_with map fold_left].
      - by rewrite app_nil_r.
      - apply list.NoDup_cons in Hnd as [Hn Hnd]. rewrite IH; [|done|].
        + cbn [fst snd]. rewrite dset_fresh by (apply Hd; by left). rewrite contents_app, <- app_assoc. f_equal.
          unfold contents. cbn [map fst snd app zip_with]. by rewrite get_pages_iter.
        + intros m Hm. cbn [fst snd]. rewrite dset_fresh by (apply Hd; by left). rewrite fmap_app. cbn.
          intros [Hin|Hin]%elem_of_app; [by apply (Hd m); [right|]|].
          apply elem_of_list_singleton in Hin as ->. done. }
    rewrite H; [done|done|]. intros n _ Hn. by apply elem_of_nil in Hn.
  Qed.

  Lemma make_table_names ns rs : NoDup ns → names (contents (make_table ty ps ns rs)) = ns.
  Proof using Type.
    intros Hnd. rewrite make_table_contents by done. unfold names. apply fst_zip.
    rewrite map_length, seq_length. lia.
  Qed.

  Lemma col_at_full m rs j :
    Forall (λ r, length r = m) rs → (j < m)%nat → col_at rs j = map (at_ VNone j) rs.
  Proof using Type.
    intros H Hj. unfold col_at. induction H as [|r rs Hr H IH]; [done|]. cbn.
    destruct (lookup_lt_is_Some_2 r j) as [x Hx]; [lia|]. rewrite Hx. unfold at_ at 1. rewrite Hx. cbn. f_equal. exact IH.
  Qed.

  Lemma make_table_rows ns rs :
    NoDup ns → ns ≠ [] → Forall (λ r, length r = length ns) rs → rows VNone (contents (make_table ty ps ns rs)) = rs.
  Proof using Type.
    intros Hnd Hne Hr. rewrite make_table_contents by done.
    set (v := zip ns _).
    assert (Hv : v = zip_with (λ n j, (n, map (at_ VNone j) rs)) ns (seq 0 (length ns))).
    { unfold v. apply list_eq. intros i. rewrite !lookup_zip_with.
      assert (HL : ∀ X Y (g : X → Y) k j, map g k !! j = g <$> k !! j) by (intros; apply list_lookup_fmap).
      rewrite HL. destruct (ns !! i) as [n|] eqn:Hn; [|done]. cbn.
      apply lookup_lt_Some in Hn. rewrite lookup_seq_lt by done. cbn. f_equal. f_equal. by eapply col_at_full. }
    assert (Hrect : rect (length rs) v).
    { rewrite Hv. apply list.Forall_forall. intros x (i & n & j & -> & _)%elem_of_lookup_zip_with. cbn. by rewrite map_length. }
    unfold rows. rewrite (nrows_rect v (length rs)); [|done|]; cycle 1.
    { rewrite Hv. by destruct ns. }
    transitivity (map (λ i, at_ [] i rs) (seq 0 (length rs))); [|apply at_seq].
    apply list_fmap_ext. intros _ i [_ Hi]%elem_of_list_lookup_2%elem_of_seq. cbn in Hi.
    destruct (lookup_lt_is_Some_2 rs i Hi) as [r Hri]. unfold at_. rewrite Hri. cbn [default].
    pose proof (proj1 (list.Forall_forall _ _) Hr r (elem_of_list_lookup_2 _ _ _ Hri)) as Hlen. cbn beta in Hlen.
    unfold row. rewrite Hv. apply list_eq. intros j.
    assert (HL : ∀ X Y (g : X → Y) k j, map g k !! j = g <$> k !! j) by (intros; apply list_lookup_fmap).
    rewrite HL, lookup_zip_with. destruct (decide (j < length ns)%nat) as [Hj|Hj].
    - destruct (lookup_lt_is_Some_2 ns j Hj) as [n Hn]. rewrite Hn. cbn. rewrite lookup_seq_lt by done. cbn.
      rewrite HL, Hri. cbn. unfold at_. destruct (lookup_lt_is_Some_2 r j) as [x ->]; [lia|done].
    - rewrite (lookup_ge_None_2 ns) by lia. rewrite (lookup_ge_None_2 r) by lia. done.
  Qed.

  (** ** the whole function *)
  Lemma get_cols_spec (t : tbl) ns : (∀ n, n ∈ ns → n ∈ t.*1) → get_cols t ns = Ok (omap (dget t) ns).
  Proof using Type.
    intros H. induction ns as [|n ns IH]; [done|]. cbn.
    destruct (dget_in t n) as [c Hc]; [apply H; by left|]. rewrite Hc.
    rewrite IH by (intros; apply H; by right). done.
  Qed.

  Lemma column_names_spec keys (functions : list (string * accumulator)) n :
    n ∈ column_names keys functions ↔ n ∈ keys ∨ n ∈ functions.*1.
  Proof using Type.
    unfold column_names. revert keys. induction functions as [|f fs IH]; intros keys; cbn [fold_left].
    - split; [by left|]. intros [|H%elem_of_nil]; done.
    - rewrite IH, fmap_cons, elem_of_cons. case_decide; [set_solver|]. rewrite elem_of_app, elem_of_list_singleton. set_solver.
  Qed.

  Context (sqrt : Qc → Qc).
  Lemma aligned_cols (t : tbl) ns n :
    ns ≠ [] → (∀ m, m ∈ ns → m ∈ t.*1) → rect n (contents t) → aligned t ns →
    ∃ sh, Forall (λ c, layout c = sh) (omap (dget t) ns) ∧ sum_list sh = n ∧ omap (dget t) ns ≠ [].
  Proof using Type.
    intros Hne Hin Hrect Hal. destruct ns as [|m ns]; [done|].
    destruct (dget_in t m) as [c Hc]; [apply Hin; by left|]. exists (layout c). split_and!.
    - apply list.Forall_forall. intros d (n' & Hn' & Hd)%elem_of_list_omap. eapply Hal; [exact Hn'| |exact Hd|exact Hc]. by left.
    - rewrite <- layout_iter. unfold rect in Hrect. apply dget_Some_elem in Hc.
      assert (Hc' : (m, col_iter c) ∈ contents t) by (apply elem_of_list_fmap; by exists (m, c)).
      by pose proof (proj1 (list.Forall_forall _ _) Hrect _ Hc').
    - cbn. by rewrite Hc.
  Qed.
  Lemma native_cols (t : tbl) ns :
    native_cells t ns → Forall (λ c, Forall (λ v, native v = true) (col_iter c)) (omap (dget t) ns).
  Proof using Type.
    intros H. apply list.Forall_forall. intros c (n & Hn & Hc)%elem_of_list_omap. by eapply H.
  Qed.

  Lemma rows_at_find (t : tbl) cns i cn :
    (∀ m, m ∈ cns → m ∈ t.*1) → cn ∈ cns →
    find_col cns (map (at_ VNone i) (map col_iter (omap (dget t) cns))) cn = Some (field VNone (contents t) cn i).
  Proof using Type.
    intros Hin Hcn. rewrite (omap_contents t cns). apply find_col_spec; [done|]. intros m. rewrite contents_names. apply Hin.
  Qed.

  Definition out_row (v : view) keys (functions : list (string * accumulator)) n (k row : list pyval) : Prop :=
    ∃ vs, row = k ++ vs ∧ Forall2 (λ f x, run_acc sqrt f.2 (members VNone v keys n k f.1) = Ok x) functions vs.

  Lemma key_length (v : view (N := string) (A := pyval)) (keys : list string) n k : k ∈ groups VNone v keys n → length k = length keys.
  Proof using Type.
    unfold groups. rewrite elem_of_distinct. intros (i & -> & _)%elem_of_list_fmap. unfold key_at. apply map_length.
  Qed.

  Theorem groupby_spec (t : tbl) keys functions n :
    rect n (contents t) → NoDup keys → functions ≠ [] →
    (∀ m, m ∈ keys ++ functions.*1 → m ∈ t.*1) → NoDup (new_names keys functions) →
    aligned t (keys ++ functions.*1) → native_cells t (keys ++ functions.*1) →
    let v := contents t in
    ((∀ k f, k ∈ groups VNone v keys n → f ∈ functions → ∃ x, run_acc sqrt f.2 (members VNone v keys n k f.1) = Ok x) ↔
      ∃ out, nim_groupby sqrt ty ps t keys functions = Ok out) ∧
    ∀ out, nim_groupby sqrt ty ps t keys functions = Ok out →
      names (contents out) = new_names keys functions ∧
      Forall2 (out_row v keys functions n) (groups VNone v keys n) (rows VNone (contents out)).
  Proof using Type.
    intros Hrect Hnd Hfne Hin Hnd' Hal Hnat v. unfold nim_groupby.
    rewrite bool_decide_true by done. cbn [negb].
    assert (Hcns : ∀ m, m ∈ column_names keys functions ↔ m ∈ keys ++ functions.*1).
    { intros m. rewrite column_names_spec, elem_of_app. done. }
    set (cns := column_names keys functions) in *.
    assert (Hcne : cns ≠ []).
    { intros E. destruct functions as [|f fs]; [done|].
      assert (Hf : f.1 ∈ cns) by (apply Hcns, elem_of_app; right; left). rewrite E in Hf. by apply elem_of_nil in Hf. }
    assert (Hin' : ∀ m, m ∈ cns → m ∈ t.*1) by (intros m Hm; by apply Hin, Hcns).
    destruct (aligned_cols t cns n) as (sh & Hl & Hsum & Hne); [done|done|done| |].
    { intros m m' c d Hm Hm'. apply Hal; by apply Hcns. }
    assert (Hn : Forall (λ c, Forall (λ v, native v = true) (col_iter c)) (omap (dget t) cns)).
    { apply native_cols. intros m c Hm. apply Hnat. by apply Hcns. }
    assert (Hmatch : ∀ X (a b c : res X), match keys, functions with [], [] => a | _, [] => b | _, _ => c end = c).
    { intros. destruct functions; [done|]. by destruct keys. }
    rewrite Hmatch. rewrite get_cols_spec by done. cbn [res_bind].
    rewrite (group_pages_spec _ _ _ sh) by done. rewrite Hsum. unfold rows_at.
    set (rowof := λ i, map (at_ VNone i) (map col_iter (omap (dget t) cns))).
    set (valf := λ cn i, field VNone v cn i).
    assert (Hkey : ∀ i, mapM (find_col cns (rowof i)) keys = Some (key_at VNone v keys i)).
    { intros i. unfold key_at. apply mapM_Some_map. intros k Hk. apply rows_at_find; [done|].
      apply Hcns, elem_of_app. by left. }
    assert (Hval : ∀ f i, f ∈ functions → find_col cns (rowof i) f.1 = Some (valf f.1 i)).
    { intros f i Hf. apply rows_at_find; [done|]. apply Hcns, elem_of_app. right. apply elem_of_list_fmap. by exists f. }
    pose proof (grouped_ok keys functions cns rowof (key_at VNone v keys) valf Hkey Hval sqrt (seq 0 n)) as Hok.
    pose proof (grouped keys functions cns rowof (key_at VNone v keys) valf Hkey Hval sqrt (seq 0 n)) as Hgr.
    assert (Hass : ∀ X (r : res X) (f : X → res (list (list pyval))) (g : list (list pyval) → tbl),
      res_bind r (λ x, res_map g (f x)) = res_map g (res_bind r f)).
    { by intros ? [] ? ?. }
    rewrite Hass. split.
    - split.
      + intros H. destruct (proj1 Hok) as [rs Hrs]; [exact H|]. fold rowof. rewrite Hrs. by eexists.
      + intros [out Hout]. apply Hok. fold rowof in Hout.
        destruct (res_bind _ _) as [rs|e]; [by exists rs|done].
    - intros out Hout. fold rowof in Hout. destruct (res_bind _ _) as [rs|e] eqn:Hrs; [|done].
      cbn in Hout. injection Hout as <-. split; [by apply make_table_names|].
      specialize (Hgr rs eq_refl). rewrite make_table_rows; [exact Hgr|done| |].
      + unfold new_names. destruct functions; [done|]. by destruct keys.
      + apply list.Forall_forall. intros r Hr. apply elem_of_list_lookup in Hr as [j Hj].
        destruct (Forall2_lookup_r _ _ _ _ _ Hgr Hj) as (k & Hk & vs & -> & HF).
        apply elem_of_list_lookup_2 in Hk. apply key_length in Hk.
        rewrite app_length, Hk. unfold new_names. rewrite app_length, map_length. f_equal. symmetry. by eapply Forall2_length.
  Qed.

  Theorem groupby_keys_spec (t : tbl) keys n :
    rect n (contents t) → NoDup keys → keys ≠ [] → (∀ m, m ∈ keys → m ∈ t.*1) →
    aligned t keys → native_cells t keys →
    ∃ out, nim_groupby sqrt ty ps t keys [] = Ok out ∧ names (contents out) = keys ∧
      rows VNone (contents out) = groups VNone (contents t) keys n.
  Proof using Type.
    intros Hrect Hnd Hne Hin Hal Hnat. unfold nim_groupby. rewrite bool_decide_true by done. cbn [negb].
    destruct (aligned_cols t keys n) as (sh & Hl & Hsum & Hcne); [done..|].
    pose proof (native_cols t keys Hnat) as Hn.
    assert (Hmatch : ∀ X (a b c : res X), match keys, @nil (string * accumulator) with [], [] => a | _, [] => b | _, _ => c end = b).
    { intros. by destruct keys. }
    rewrite (Hmatch _ _ _ (Err OtherError)). rewrite get_cols_spec by done. cbn [res_bind].
    assert (Hlen : length (default [] (head (omap (dget t) keys))) = length sh).
    { destruct (omap (dget t) keys) as [|c cs]; [done|]. apply list.Forall_cons in Hl as [<- _]. cbn. unfold layout. by rewrite map_length. }
    match goal with |- context [index_rows _ (seq 0 ?m)] => replace m with (length sh) by (symmetry; exact Hlen) end.
    rewrite (index_rows_spec sh) by done. cbn [res_map]. rewrite firstn_all, Hsum.
    eexists. split; [done|].
    assert (Hrows : rows_at (omap (dget t) keys) n = map (key_at VNone (contents t) keys) (seq 0 n)).
    { unfold rows_at. apply map_ext. intros i. unfold key_at. rewrite (omap_contents t keys). clear -Hin.
      assert (Hin' : ∀ m, m ∈ keys → m ∈ names (contents t)) by (intros m; rewrite contents_names; apply Hin). clear Hin.
      revert Hin'. generalize (contents t) as v. intros v. induction keys as [|k ks IH]; intros Hin; [done|]. cbn [map omap list_omap].
      destruct (dget_in v k) as [l Hl]; [apply Hin; by left|]. rewrite Hl. cbn [map]. f_equal.
      - pose proof (find_col_spec VNone [k] v i k) as Hf. cbn [omap list_omap] in Hf. rewrite Hl in Hf. cbn in Hf.
        rewrite decide_True in Hf by done. assert (Some (at_ VNone i l) = Some (field VNone v k i)) as [= ->]; [|done].
        apply Hf; [by left|]. intros m ->%elem_of_list_singleton. apply Hin. by left.
      - apply IH. intros m Hm. apply Hin. by right. }
    rewrite Hrows, index_table_distinct. fold (groups VNone (contents t) keys n).
    split; [by apply make_table_names|]. apply make_table_rows; [done|done|].
    apply list.Forall_forall. intros r Hr. by eapply key_length.
  Qed.
End table.
