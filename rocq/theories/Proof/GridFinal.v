From stdpp Require Import strings pretty.
From Verif.Proof Require Export GridTable.
From Verif.Spec Require Export GroupTerms.
From Verif.Proof Require Import ColumnRead ColumnMisc SliceLemmas PageLifeProofs SelectFinal.
Local Open Scope Z_scope.

Section final.
  Context {A E T : Type} `{EqDecision E, EqDecision T} (ek : A → E) (none : A) (text : string → A) (show : A → string).
  Context (ty : A → T) (ps : Z) (Hps : 0 < ps).
  Notation tbl := (table string A T).
  Notation fact := (list A * list A * list A)%type.
  Notation cell := (cell ek none).
  Notation rks fs := (row_keys_of ek fs).
  Notation cks fs := (col_keys_of ek fs).

  Notation col_label := (col_label show).
  Notation fun_col_label := (fun_col_label show).

  Section state.
    Context (fs : list fact) (nr nc g : nat).
    Context (Hlen : Forall (λ f, length f.1.1 = nr ∧ length f.1.2 = nc ∧ length f.2 = g) fs).
    Context (recs : records (A := A)).
    Context (Hnd : ∀ c, NoDup (dget_or recs c []).*1).
    Context (Hrec : ∀ c r f, get_rec recs c r = Some f ↔
      ∃ rk ck, rks fs !! r = Some rk ∧ cks fs !! c = Some ck ∧ fact_at ek fs rk ck = Some f).

    Lemma rk_length k : k ∈ rks fs → length k = nr.
    Proof using Hlen.
      intros Hk. apply firsts_elem in Hk. apply elem_of_list_fmap in Hk as (p & -> & Hp). apply elem_of_list_fmap in Hp as (f & -> & Hf).
      exact (proj1 (proj1 (list.Forall_forall _ _) Hlen f Hf)).
    Qed.
    Lemma rec_bounds c : Forall (λ e, length e.2 = g ∧ (e.1 < length (rks fs))%nat) (dget_or recs c []).
    Proof using Hlen Hnd Hrec.
      apply list.Forall_forall. intros [r f] Hin. apply (dget_Some _ _ _ (Hnd c)) in Hin. cbn [fst snd].
      change (get_rec recs c r = Some f) in Hin. apply Hrec in Hin as (rk & ck & H1 & _ & H3).
      split; [|by apply lookup_lt_Some in H1]. apply fact_at_elem in H3 as (f0 & Hf0 & <- & _).
      exact (proj2 (proj2 (proj1 (list.Forall_forall _ _) Hlen f0 Hf0))).
    Qed.
    Lemma rec_get c ck r rk : cks fs !! c = Some ck → rks fs !! r = Some rk → dget (dget_or recs c []) r = fact_at ek fs rk ck.
    Proof using Hrec.
      intros Hc Hr. change (get_rec recs c r = fact_at ek fs rk ck). destruct (fact_at ek fs rk ck) as [f|] eqn:Ef.
      - apply Hrec. eauto.
      - destruct (get_rec recs c r) as [f|] eqn:Eg; [|done]. apply Hrec in Eg as (rk' & ck' & H1 & H2 & H3).
        rewrite Hr in H1. rewrite Hc in H2. injection H1 as <-. injection H2 as <-. congruence.
    Qed.
    Lemma cells_all rk ck f : fact_at ek fs rk ck = Some f → map (cell fs rk ck) (seq 0 g) = f.
    Proof using Hlen.
      intros Hf. assert (length f = g) as <-.
      { apply fact_at_elem in Hf as (f0 & Hf0 & <- & _). exact (proj2 (proj2 (proj1 (list.Forall_forall _ _) Hlen f0 Hf0))). }
      rewrite <- (at_seq none f) at 2. apply map_ext. intros j. unfold Grid.cell. rewrite Hf. done.
    Qed.
    Lemma cells_none rk ck : fact_at ek fs rk ck = None → map (cell fs rk ck) (seq 0 g) = replicate g none.
    Proof.
      intros Hf. apply list_eq. intros j. change (map ?f ?x) with (f <$> x). rewrite list_lookup_fmap. destruct (decide (j < g)%nat).
      - rewrite lookup_seq_lt, lookup_replicate_2 by done. cbn. f_equal. unfold Grid.cell. by rewrite Hf.
      - rewrite lookup_seq_ge by lia. symmetry. apply lookup_ge_None_2. rewrite replicate_length. lia.
    Qed.

    (** a column of the grid, with more rows *)
    Lemma fill_column c ck functions : length functions = g → cks fs !! c = Some ck →
      fill_all g (dget_or recs c []) (replicate (g * length (rks fs)) none)
      = Ok (map (λ p, cell fs p.1 ck p.2.1) (row_ixs text functions (rks fs))).
    Proof using Hlen Hnd Hrec.
      intros Hg Hc. rewrite replicate_blocks, fill_all_spec.
      2:{ apply list.Forall_forall. intros B [-> _]%elem_of_replicate. by rewrite replicate_length. }
      2:{ eapply list.Forall_impl; [apply rec_bounds|]. intros e. rewrite replicate_length. done. }
      f_equal. transitivity (concat (map (λ rk, map (cell fs rk ck) (seq 0 g)) (rks fs))).
      - f_equal. apply list_eq. intros r. rewrite insert_fold_lookup; [|done|].
        2:{ intros i Hi. apply elem_of_list_fmap in Hi as (e & -> & He). rewrite replicate_length.
            exact (proj2 (proj1 (list.Forall_forall _ _) (rec_bounds c) e He)). }
        change (map ?f ?x) with (f <$> x). rewrite list_lookup_fmap. destruct (rks fs !! r) as [rk|] eqn:Er.
        + rewrite (rec_get c ck r rk) by done. cbn. change (cell fs rk ck <$> seq 0 g) with (map (cell fs rk ck) (seq 0 g)).
          destruct (fact_at ek fs rk ck) as [f|] eqn:Ef; [by rewrite (cells_all _ _ f)|]. rewrite cells_none by done.
          apply lookup_replicate_2. by apply lookup_lt_Some in Er.
        + apply lookup_ge_None in Er. destruct (dget _ r) as [f|] eqn:Eg.
          * apply Hrec in Eg as (rk & _ & H1 & _). apply lookup_lt_Some in H1. lia.
          * apply lookup_ge_None_2. rewrite replicate_length. lia.
      - unfold row_ixs. rewrite concat_map, map_map. f_equal. apply map_ext. intros rk. rewrite map_map. cbn [fst snd].
        rewrite <- (map_map fst (cell fs rk ck)). f_equal. rewrite Hg. symmetry.
        change (map fst ?x) with (x.*1). apply fst_zip. rewrite seq_length, map_length. lia.
    Qed.
    (** with more columns *)
    Lemma fill_columns c ck : cks fs !! c = Some ck →
      fill_all_cols (dget_or recs c []) (replicate g (replicate (length (rks fs)) none))
      = Ok (map (λ j, map (λ rk, cell fs rk ck j) (rks fs)) (seq 0 g)).
    Proof using Hlen Hnd Hrec.
      intros Hc. rewrite (fill_all_cols_spec none (length (rks fs))).
      2:{ apply list.Forall_forall. intros B [-> _]%elem_of_replicate. by rewrite replicate_length. }
      2:{ eapply list.Forall_impl; [apply rec_bounds|]. intros e. rewrite replicate_length. done. }
      f_equal. apply list_eq. intros j. rewrite list_lookup_imap. change (map ?f ?x) with (f <$> x). rewrite list_lookup_fmap.
      destruct (decide (j < g)%nat) as [Hj|Hj].
      2:{ rewrite lookup_seq_ge by lia. rewrite lookup_ge_None_2; [done|]. rewrite replicate_length. lia. }
      rewrite lookup_replicate_2, lookup_seq_lt by done. cbn. f_equal.
      assert (Hfold : ∀ (d : list (nat * list A)) (col : list A), fold_left (λ col e, <[e.1 := default none (e.2 !! j)]> col) d col
        = fold_left (λ col e, <[e.1 := e.2]> col) (map (λ e, (e.1, default none (e.2 !! j))) d) col).
      { induction d as [|e d IH]; intros col; [done|]. apply IH. }
      rewrite Hfold. apply list_eq. intros r. rewrite insert_fold_lookup.
      2:{ rewrite (map_fst_map (λ l : list A, default none (l !! j))). apply Hnd. }
      2:{ intros i Hi. rewrite (map_fst_map (λ l : list A, default none (l !! j))) in Hi. apply elem_of_list_fmap in Hi as (e & -> & He). rewrite replicate_length.
          exact (proj2 (proj1 (list.Forall_forall _ _) (rec_bounds c) e He)). }
      rewrite (dget_map (λ l : list A, default none (l !! j))). rewrite list_lookup_fmap. destruct (rks fs !! r) as [rk|] eqn:Er.
      - rewrite (rec_get c ck r rk) by done. cbn. unfold Grid.cell.
        destruct (fact_at ek fs rk ck) as [f|] eqn:Ef; [done|]. cbn. apply lookup_replicate_2. by apply lookup_lt_Some in Er.
      - apply lookup_ge_None in Er. destruct (dget _ r) as [f|] eqn:Eg.
        + apply Hrec in Eg as (rk & _ & H1 & _). apply lookup_lt_Some in H1. lia.
        + cbn. apply lookup_ge_None_2. rewrite replicate_length. lia.
    Qed.

    Lemma add_grid_spec columns n cis (t : tbl) (colf : list A → list A) :
      (∀ e, e ∈ cis → fill_all g (dget_or recs e.2.2 []) (replicate n none) = Ok (colf e.2.1)) →
      add_grid none show ty ps columns g n recs (cis : index (A := A) (E := E)) t
      = add_uniques ty ps t (map (λ e, (col_label columns e.2.1, colf e.2.1)) cis).
    Proof.
      revert t. induction cis as [|[k [ck c]] cis IH]; intros t He; [done|]. cbn [add_grid map add_uniques fst snd].
      pose proof (He (k, (ck, c)) ltac:(left)) as Hf. cbn [fst snd] in Hf. rewrite Hf. cbn [res_bind fst snd]. fold (col_label columns ck).
      destruct (add_unique ty ps t (col_label columns ck) (colf ck)) as [t'|]; [|done]. cbn [res_bind].
      apply IH. intros e Hin. apply He. by right.
    Qed.
  End state.

  Lemma row_ixs_length functions ks : length (row_ixs (A := A) text functions ks) = (length functions * length ks)%nat.
  Proof.
    unfold row_ixs. induction ks as [|k ks IH]; cbn [map concat length]; [lia|]. rewrite app_length, IH, map_length, zip_with_length, seq_length, map_length. lia.
  Qed.
  Lemma numbered_keys_rep l : map (λ e : list E * (list A * nat), e.2.1) (numbered_keys ek l) = l.
  Proof.
    unfold numbered_keys. change (map ?f ?x) with (f <$> x). rewrite fmap_imap. unfold compose. cbn [fst snd].
    transitivity (map id l); [apply (imap_const id)|apply map_id].
  Qed.
  Lemma numbered_keys_elem l e : e ∈ numbered_keys ek l → l !! e.2.2 = Some e.2.1.
  Proof.
    intros [i Hi]%elem_of_list_lookup. unfold numbered_keys in Hi. rewrite list_lookup_imap in Hi.
    destruct (l !! i) as [k|] eqn:Ek; [|done]. injection Hi as <-. done.
  Qed.

  Section pivoted.
    Context (rws columns : list string) (functions : list (string * string)) (fs : list fact).
    Context (Hlen : Forall (λ f, length f.1.1 = length rws ∧ length f.1.2 = length columns ∧ length f.2 = length functions) fs).
    Context (Hne : fs ≠ []).
    Notation run b := (pivot_grid ek none text show ty ps rws columns functions b (map to_row fs)).

    Lemma last_fact : ∃ f, list.last fs = Some f ∧ f ∈ fs.
    Proof using Hlen Hne.
      destruct (list.last fs) as [f|] eqn:El; [|by apply last_None in El]. exists f. split; [done|].
      apply last_Some in El as (l & ->). apply elem_of_app. right. by left.
    Qed.
    Lemma run_unfold b : NoDup (map (pair_key ek) fs) → ∃ f ris cis recs, f ∈ fs ∧ good ek fs (ris, cis, recs) ∧
      run b = if b then values_as_rows none text show ty ps rws columns functions (ris, cis, recs)
              else values_as_columns none show ty ps rws columns functions f.2 (ris, cis, recs).
    Proof using Hlen Hne.
      intros Hnd. destruct last_fact as (f & Hlast & Hin).
      destruct (grid_rows_good ek (length rws) (length columns) [] fs ([], [], []) (good_nil ek)) as [H1 _].
      { eapply list.Forall_impl; [exact Hlen|]. by intros ? (? & ? & ?). }
      { constructor. }
      cbn [app] in H1. destruct (H1 Hnd) as ([[ris cis] recs] & Hrun & Hg). exists f, ris, cis, recs. split_and!; [done..|].
      unfold pivot_grid. change (map to_row fs) with (to_row <$> fs) in *. rewrite fmap_last, Hlast. cbn [fmap option_fmap option_map].
      rewrite Hrun. cbn [res_bind]. destruct b; [done|]. f_equal.
      pose proof (proj1 (list.Forall_forall _ _) Hlen f Hin) as (L1 & L2 & _). unfold to_row.
      rewrite <- L1, <- L2, drop_add_app, drop_app by done. done.
    Qed.
    Lemma run_collision b : ¬ NoDup (map (pair_key ek) fs) → run b = Err ValueError.
    Proof using Hlen Hne.
      intros Hnd. destruct last_fact as (f & Hlast & Hin).
      destruct (grid_rows_good ek (length rws) (length columns) [] fs ([], [], []) (good_nil ek)) as [_ H2].
      { eapply list.Forall_impl; [exact Hlen|]. by intros ? (? & ? & ?). }
      { constructor. }
      unfold pivot_grid. change (map to_row fs) with (to_row <$> fs) in *. rewrite fmap_last, Hlast. cbn [fmap option_fmap option_map].
      rewrite (H2 Hnd). done.
    Qed.

    Theorem pivot_rows_spec : NoDup (map (pair_key ek) fs) →
      ∃ t, run true = Ok t ∧
        dedup_headers (rws ++ ["function"] ++ map (col_label columns) (cks fs)) = Some (names (contents t)) ∧
        rows none (contents t) = grid_as_rows ek none (map (fun_label text) functions) fs.
    Proof using Hlen Hne Hps.
      intros Hnd. destruct (run_unfold true Hnd) as (f & ris & cis & recs & _ & (Hr & Hc & Hn & Hg) & Hrun).
      cbn [fst snd] in *. subst ris cis. unfold values_as_rows in Hrun.
      rewrite (key_lists_spec none) in Hrun.
      2:{ rewrite numbered_keys_rep. apply list.Forall_forall. intros k Hk. exact (rk_length fs _ _ _ Hlen k Hk). }
      rewrite numbered_keys_rep in Hrun. cbv zeta in Hrun.
      change (firsts ek fs.*1.*1) with (rks fs) in *. change (firsts ek fs.*1.*2) with (cks fs) in *.
      set (ixs := row_ixs text functions (rks fs)) in *.
      assert (Hlc : length (default [] (head (map (λ m, map (λ p, at_col none m p.1) ixs) (seq 0 (length rws)) ++ [map (λ p, p.2.2) ixs])))
                    = (length functions * length (rks fs))%nat).
      { rewrite <- row_ixs_length. fold ixs. destruct rws as [|r0 rws']; cbn; by rewrite map_length. }
      cbv beta iota in Hrun. rewrite Hlc in Hrun. clear Hlc.
      set (hs := map (λ m (p : list A * (nat * A)), at_col none m p.1) (seq 0 (length rws)) ++ (λ p, p.2.2) :: map (λ ck p, cell fs p.1 ck p.2.1) (cks fs)).
      set (cols1 := zip (rws ++ ["function"]) _) in Hrun.
      destruct (add_uniques_spec ty ps Hps [] cols1) as (ns1 & t1 & Ht1 & _). rewrite Ht1 in Hrun. cbn [res_bind] in Hrun.
      rewrite (add_grid_spec (length functions) recs columns _ _ t1 (λ ck, map (λ p, cell fs p.1 ck p.2.1) ixs)) in Hrun.
      2:{ intros e He. apply (fill_column fs (length rws) (length columns)); [done..|]. by apply numbered_keys_elem. }
      rewrite <- (add_uniques_app ty ps [] t1 cols1) in Hrun by done.
      set (cols := cols1 ++ _) in Hrun.
      destruct (add_uniques_spec ty ps Hps [] cols) as (ns & t & Ht & Hd & Hl & Hct & Hk). rewrite Ht in Hrun.
      assert (L1 : length (rws ++ ["function"]) = length (map (λ m, map (λ p, at_col none m p.1) ixs) (seq 0 (length rws)) ++ [map (λ p, p.2.2) ixs])).
      { rewrite !app_length, map_length, seq_length. done. }
      assert (F1 : cols.*1 = rws ++ ["function"] ++ map (col_label columns) (cks fs)).
      { unfold cols, cols1. rewrite fmap_app, fst_zip by lia. rewrite <- app_assoc. f_equal. f_equal.
        rewrite <- (numbered_keys_rep (cks fs)) at 2. rewrite map_map. change (?x.*1) with (map fst x). rewrite map_map. done. }
      assert (F2 : cols.*2 = map (λ h, map h ixs) hs).
      { unfold cols, cols1, hs. rewrite fmap_app, snd_zip by lia. rewrite map_app, <- app_assoc. f_equal; [by rewrite map_map|].
        cbn [map app]. f_equal. rewrite <- (numbered_keys_rep (cks fs)) at 2. rewrite !map_map. change (?x.*2) with (map snd x). done. }
      cbn [contents map app] in Hct. change ([].*1) with (@nil string) in Hd. cbn [app] in Hd.
      assert (Lh : length ns = length hs).
      { rewrite Hl. rewrite <- (fmap_length snd cols), F2. apply map_length. }
      exists t. split; [done|]. split.
      - unfold dedup_headers. rewrite <- F1. unfold dedup_from in Hd. rewrite Hd. f_equal. rewrite Hct. unfold names. symmetry. apply fst_zip. rewrite F2, map_length. lia.
      - rewrite Hct, F2, rows_of; [|done|intros Heq; apply (f_equal length) in Heq; unfold hs in Heq; rewrite app_length in Heq; cbn [length] in Heq; lia].
        unfold grid_as_rows, ixs, row_ixs. rewrite concat_map, map_map, map_length. f_equal. apply map_ext_in. intros rk Hrk.
        rewrite map_map. apply map_ext. intros [j l]. unfold hs. rewrite map_app, map_map. cbn [map fst snd]. rewrite map_map.
        f_equal. apply at_cols. apply (rk_length fs _ _ _ Hlen). by apply elem_of_list_In.
    Qed.

    (** ** more columns *)
    Lemma add_cols_spec last n recs cis (t : tbl) (colf : list A → list (list A)) :
      length last = length functions → NoDup t.*1 →
      (∀ e, e ∈ cis → fill_all_cols (dget_or recs e.2.2 []) (replicate (length functions) (replicate n none)) = Ok (colf e.2.1) ∧ length (colf e.2.1) = length functions) →
      (∀ e used ns, e ∈ cis → mapM (λ n, unique_name n used) (map (fun_col_label columns e.2.1) functions) = Some ns → NoDup ns) →
      let labels := concat (map (λ e, map (fun_col_label columns e.2.1) functions) cis) in
      ∃ ns t', add_cols none show ty ps columns functions last n recs (cis : index (A := A) (E := E)) t = Ok t' ∧
        contents t' = contents t ++ zip ns (concat (map (λ e, colf e.2.1) cis)) ∧
        Forall2 (λ l n, n = l ∨ ∃ k, n = numbered l k) labels ns ∧ NoDup (t.*1 ++ ns) ∧
        (NoDup (t.*1 ++ labels) → ns = labels).
    Proof using Hps.
      intros Hlast. revert t. induction cis as [|[k [ck c]] cis IH]; intros t Hndt He Hb; cbv zeta.
      - exists [], t. cbn. rewrite !app_nil_r. split_and!; [done..|constructor|done|done].
      - cbn [add_cols map concat fst snd].
        assert (Hbatch : batch show columns functions last ck = map (fun_col_label columns ck) functions).
        { unfold batch. rewrite <- (fst_zip functions last) at 2 by lia. change (?x.*1) with (map fst x). rewrite map_map. done. }
        rewrite Hbatch.
        assert (Hmm : ∃ ns, mapM (λ n, unique_name n t.*1) (map (fun_col_label columns ck) functions) = Some ns).
        { apply mapM_is_Some_2. apply list.Forall_forall. intros l _. destruct (unique_name_spec l t.*1) as (x & Hx & _). eauto. }
        destruct Hmm as (ns & Hns). rewrite Hns.
        pose proof (Hb (k, (ck, c)) _ ns ltac:(left) Hns) as Hndns. cbn [fst snd] in Hndns.
        apply mapM_Some in Hns as HF. pose proof (Forall2_length _ _ _ HF) as HL. rewrite map_length in HL.
        destruct (He (k, (ck, c)) ltac:(left)) as [Hfill Hcl]. cbn [fst snd] in Hfill, Hcl.
        assert (map (λ _ : string, replicate n none) ns = replicate (length functions) (replicate n none)) as ->.
        { rewrite HL. clear. induction ns as [|x ns IHn]; [done|]. cbn [map length replicate]. by rewrite IHn. }
        rewrite Hfill. cbn [res_bind].
        assert (Hfresh : ∀ x, x ∈ ns → x ∉ t.*1).
        { intros x [i Hi]%elem_of_list_lookup. destruct (Forall2_lookup_r _ _ _ _ _ HF Hi) as (l & _ & Hl).
          destruct (unique_name_spec l t.*1) as (y & Hy & Hf & _). rewrite Hy in Hl. by injection Hl as <-. }
        assert (Hnd1 : NoDup (t.*1 ++ ns)).
        { apply list.NoDup_app. split; [done|]. split; [|done]. intros x Hx Hx'. by apply (Hfresh x). }
        set (t1 := fold_left (λ t c, tbl_set ty ps t c.1 c.2) (zip ns (colf ck)) t).
        assert (Z1 : (zip ns (colf ck)).*1 = ns) by (apply fst_zip; lia).
        assert (Hc1 : contents t1 = contents t ++ zip ns (colf ck) ∧ t1.*1 = t.*1 ++ ns).
        { assert (Hs : ∀ (l : list (string * list A)) (u : tbl), contents (fold_left (λ t c, tbl_set ty ps t c.1 c.2) l u)
                       = fold_left (λ d c, dset d c.1 c.2) l (contents u)).
          { induction l as [|[x vs] l IHl]; intros u; cbn [fold_left]; [done|]. rewrite IHl. f_equal.
            unfold tbl_set. rewrite contents_dset. f_equal. unfold col_new. by rewrite col_extend_iter. }
          assert (Hcc : contents t1 = contents t ++ zip ns (colf ck)).
          { unfold t1. rewrite Hs. apply fold_dset_fresh. rewrite Z1. change ((contents t).*1) with (names (contents t)). by rewrite contents_names. }
          split; [done|]. rewrite <- (contents_names t1), Hcc. unfold names. rewrite fmap_app, Z1.
          change ((contents t).*1) with (names (contents t)). by rewrite contents_names. }
        destruct Hc1 as [Hc1 Hk1].
        destruct (IH t1) as (ns' & t' & Ht' & Hct' & HF' & Hnd' & Hid').
        { by rewrite Hk1. }
        { intros e Hin. apply He. by right. }
        { intros e used ns0 Hin. apply Hb. by right. }
        rewrite Hk1, <- app_assoc in Hnd'.
        exists (ns ++ ns'), t'. split_and!; [done| | |done|].
        + rewrite Hct', Hc1, <- app_assoc. f_equal. rewrite zip_with_app by lia. done.
        + apply Forall2_app; [|exact HF']. eapply Forall2_impl; [exact HF|]. intros l x Hlx. cbn beta in Hlx.
          destruct (unique_name_spec l t.*1) as (y & Hy & _ & Hcase). rewrite Hy in Hlx. injection Hlx as ->.
          destruct Hcase as [[_ ->]|(_ & kk & _ & -> & _)]; [by left|right; eauto].
        + intros Hall. assert (ns = map (fun_col_label columns ck) functions) as Hns'.
          { clear -HF Hall. rewrite app_assoc in Hall. apply list.NoDup_app in Hall as (Hall & _ & _).
            apply list.NoDup_app in Hall as (_ & Hdis & _). apply list_eq. intros i.
            destruct (ns !! i) as [x|] eqn:Ex.
            - destruct (Forall2_lookup_r _ _ _ _ _ HF Ex) as (l & Hl & Hlx). rewrite Hl. f_equal.
              destruct (unique_name_spec l t.*1) as (y & Hy & _ & Hcase). cbn beta in Hlx. rewrite Hy in Hlx. injection Hlx as ->.
              destruct Hcase as [[_ ->]|(Hin & _)]; [done|]. exfalso. apply (Hdis l Hin). by apply elem_of_list_lookup_2 in Hl.
            - symmetry. apply lookup_ge_None. apply lookup_ge_None in Ex. apply Forall2_length in HF. lia. }
          rewrite Hns' in *. f_equal. apply Hid'. by rewrite Hk1, <- app_assoc.
    Qed.

    Theorem pivot_columns_spec : NoDup (map (pair_key ek) fs) → NoDup rws → rws ≠ [] ∨ functions ≠ [] →
      (∀ ck used ns, mapM (λ n, unique_name n used) (map (fun_col_label columns ck) functions) = Some ns → NoDup ns) →
      let labels := concat (map (λ ck, map (fun_col_label columns ck) functions) (cks fs)) in
      ∃ t ns, run false = Ok t ∧ names (contents t) = rws ++ ns ∧ NoDup (rws ++ ns) ∧
        Forall2 (λ l n, n = l ∨ ∃ k, n = numbered l k) labels ns ∧ (NoDup (rws ++ labels) → ns = labels) ∧
        rows none (contents t) = grid_as_columns ek none (length functions) fs.
    Proof using Hlen Hne Hps.
      intros Hnd Hrws Hsome Hb labels. destruct (run_unfold false Hnd) as (f & ris & cis & recs & Hf & (Hr & Hc & Hn & Hg) & Hrun).
      cbn [fst snd] in *. subst ris cis. unfold values_as_columns in Hrun.
      change (firsts ek fs.*1.*1) with (rks fs) in *. change (firsts ek fs.*1.*2) with (cks fs) in *.
      assert (Hkeys : fold_left (λ cols (k : list E * (list A * nat)), add_keys cols k.2.1) (numbered_keys ek (rks fs)) (replicate (length rws) [])
                      = map (λ m, map (at_col none m) (rks fs)) (seq 0 (length rws))).
      { assert (Hmap : ∀ (l : list (list E * (list A * nat))) cols, fold_left (λ cols k, add_keys cols k.2.1) l cols = fold_left add_keys (map (λ e, e.2.1) l) cols).
        { induction l as [|e l IHl]; intros cols; [done|]. apply IHl. }
        rewrite Hmap, numbered_keys_rep, (keys_start none). apply (add_keys_fold none).
        apply list.Forall_forall. intros k Hk. exact (rk_length fs _ _ _ Hlen k Hk). }
      rewrite Hkeys in Hrun.
      set (kc := map (λ m, map (at_col none m) (rks fs)) (seq 0 (length rws))) in *.
      assert (Lk : length kc = length rws) by (unfold kc; by rewrite map_length, seq_length).
      assert (Hc0 : contents (fold_left (λ t c, tbl_set ty ps t c.1 c.2) (zip rws kc) ([] : tbl)) = zip rws kc).
      { apply tbl_of_columns_spec; [done|]. by rewrite fst_zip by lia. }
      set (t0 := fold_left (λ (t : tbl) (c : string * list A), tbl_set ty ps t c.1 c.2) (zip rws kc) []) in *.
      assert (Hk0 : t0.*1 = rws). { rewrite <- contents_names, Hc0. apply fst_zip. lia. }
      assert (length (numbered_keys ek (rks fs)) = length (rks fs)) as Ln by apply imap_length. rewrite Ln in Hrun.
      destruct (add_cols_spec f.2 (length (rks fs)) recs (numbered_keys ek (cks fs)) t0
        (λ ck, map (λ j, map (λ rk, cell fs rk ck j) (rks fs)) (seq 0 (length functions)))) as (ns & t & Ht & Hct & HF & Hndn & Hid).
      { exact (proj2 (proj2 (proj1 (list.Forall_forall _ _) Hlen f Hf))). }
      { by rewrite Hk0. }
      { intros e He. split; [|by rewrite map_length, seq_length]. apply (fill_columns fs (length rws) (length columns)); [done..|]. by apply numbered_keys_elem. }
      { intros e used ns _. apply Hb. }
      assert (Hlab : concat (map (λ e : list E * (list A * nat), map (fun_col_label columns e.2.1) functions) (numbered_keys ek (cks fs))) = labels).
      { unfold labels. rewrite <- (numbered_keys_rep (cks fs)) at 2. by rewrite map_map. }
      rewrite Hlab, Hk0 in *. rewrite Ht in Hrun.
      set (hs := map (λ m (rk : list A), at_col none m rk) (seq 0 (length rws)) ++
                 concat (map (λ ck, map (λ j rk, cell fs rk ck j) (seq 0 (length functions))) (cks fs))).
      assert (Hcols : kc ++ concat (map (λ e : list E * (list A * nat), map (λ j, map (λ rk, cell fs rk e.2.1 j) (rks fs)) (seq 0 (length functions))) (numbered_keys ek (cks fs)))
                      = map (λ h, map h (rks fs)) hs).
      { unfold hs. rewrite map_app, map_map. f_equal. rewrite concat_map, map_map. f_equal.
        rewrite <- (numbered_keys_rep (cks fs)) at 2. rewrite map_map. apply map_ext. intros e. by rewrite map_map. }
      assert (Llab : length ns = length (concat (map (λ ck, map (λ j (rk : list A), cell fs rk ck j) (seq 0 (length functions))) (cks fs)))).
      { apply Forall2_length in HF. rewrite <- HF. unfold labels. generalize (cks fs). clear. induction l as [|x l IHl]; [done|].
        cbn [map concat]. rewrite !app_length, IHl, !map_length, seq_length. done. }
      assert (Lh : length (rws ++ ns) = length hs).
      { unfold hs. rewrite !app_length, map_length, seq_length, Llab. done. }
      assert (Hall : contents t = zip (rws ++ ns) (map (λ h, map h (rks fs)) hs)).
      { rewrite Hct, Hc0, <- Hcols. rewrite zip_with_app by lia. done. }
      exists t, ns. split_and!; [done| |done|done|done|].
      - rewrite Hall. unfold names. apply fst_zip. rewrite map_length. lia.
      - assert (Hnf : fs ≠ [] → cks fs ≠ []). { intros Hfs. destruct fs; done. }
        rewrite Hall, rows_of; [|done|].
        + unfold grid_as_columns. apply map_ext_in. intros rk Hrk. unfold hs. rewrite map_app, map_map. f_equal.
          * apply at_cols. apply (rk_length fs _ _ _ Hlen). by apply elem_of_list_In.
          * rewrite concat_map, map_map. f_equal. apply map_ext. intros ck. rewrite map_map. done.
        + intros Heq. apply (f_equal length) in Heq. rewrite <- Lh, app_length, Llab in Heq. cbn [length] in Heq.
          destruct Hsome as [Hs|Hs]; [destruct rws; [done|cbn [length] in Heq; lia]|].
          specialize (Hnf Hne). destruct (cks fs) as [|x l]; [done|]. destruct functions; [done|]. cbn in Heq. lia.
    Qed.
  End pivoted.
End final.
