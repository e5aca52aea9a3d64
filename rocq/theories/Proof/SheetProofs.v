(** Proofs of C93: the rows read by [excel_reader] and [ods_reader]. *)
From Verif.Proof Require Import NamesProofs ColumnRead DictLemmas TableBase SmallProofs ExportProofs JsonTableProofs SheetPack.
From Verif.Spec Require Import SheetCells.
From Verif.Model Require Import SheetReader.
Local Open Scope list_scope.
Local Open Scope Z_scope.

Definition add_row {A} (cols : list (list A)) (row : list A) : list (list A) := zip_with (λ c v, c ++ [v]) cols row.

Lemma add_row_length {A} (cols : list (list A)) row : length row = length cols → length (add_row cols row) = length cols.
Proof. intros H. unfold add_row. rewrite zip_with_length. lia. Qed.

Lemma zip_app_add {A} (cols pc : list (list A)) row : length pc = length cols →
  zip_with app cols (add_row pc row) = add_row (zip_with app cols pc) row.
Proof.
  revert pc row. induction cols as [|c cols IH]; intros pc row Hl; [by destruct pc|].
  destruct pc as [|p pc]; [done|]. destruct row as [|v row]; [done|]. cbn. rewrite app_assoc. f_equal. apply IH. cbn in Hl. lia.
Qed.

Lemma zip_app_nil {A} (cols : list (list A)) : zip_with app cols (replicate (length cols) []) = cols.
Proof. induction cols as [|c cols IH]; [done|]. cbn. by rewrite app_nil_r, IH. Qed.

Lemma add_rows_columns {A B} (f : nat → A → B) (used : list nat) (rows : list A) :
  fold_left add_row (map (λ r, map (λ i, f i r) used) rows) (map (λ _, []) used) = map (λ i, map (f i) rows) used.
Proof.
  induction rows as [|r rows IH] using rev_ind; [done|].
  rewrite map_app, fold_left_app, IH. cbn [map fold_left]. clear IH. unfold add_row.
  induction used as [|i used IH]; [done|]. cbn [map zip_with]. rewrite map_app, IH. done.
Qed.

Lemma dset_at {N V} `{EqDecision N} (pre : list (N * V)) n v w rest : n ∉ pre.*1 →
  dset (pre ++ (n, v) :: rest) n w = pre ++ (n, w) :: rest.
Proof.
  induction pre as [|[m x] pre IH]; intros Hn; cbn [app dset].
  - by rewrite decide_True.
  - rewrite fmap_cons in Hn. apply not_elem_of_cons in Hn as [H1 H2]. cbn in H1.
    rewrite decide_False by done. by rewrite IH.
Qed.

Lemma dget_at {N V} `{EqDecision N} (pre : list (N * V)) n v rest : n ∉ pre.*1 → dget (pre ++ (n, v) :: rest) n = Some v.
Proof.
  induction pre as [|[m x] pre IH]; intros Hn; cbn [app dget].
  - by rewrite decide_True.
  - rewrite fmap_cons in Hn. apply not_elem_of_cons in Hn as [H1 H2]. cbn in H1.
    rewrite decide_False by done. by apply IH.
Qed.

Lemma zip_fst {A B} (l : list A) (k : list B) : length k = length l → (zip l k).*1 = l.
Proof. intros H. apply fst_zip. lia. Qed.

Section reader.
  Context {O T : Type} `{EqDecision O, EqDecision T} (ty : xcell O → T) (ps : Z).
  Context (str : xcell O → string) (dumps : O → list Z) (loads : list Z → O).
  Local Notation table := (table string (xcell O) T).
  Local Notation size := (λ o, zlen (dumps o)).
  Context (Hps : 0 < ps) (Hloads : ∀ o, loads (dumps o) = o).

  Definition holds (fh : list Z) (vs : list (xcell O)) : Prop :=
    Forall (storable size) vs ∧ ∃ bs, Forall2 (λ v b, pack dumps v = Ok b) vs bs ∧ fh = concat bs.

  Lemma holds_nil : holds [] [].
  Proof. split; [constructor|]. exists []. split; [constructor|done]. Qed.

  Lemma holds_unpack fh vs : holds fh vs → unpack loads (length fh) fh = Ok vs.
  Proof. intros (Hs & bs & Hb & ->). by apply (unpack_packed dumps loads). Qed.

  Lemma fix_pages_spec names : ∀ fhs pc cols pre (t : table),
    contents t = pre ++ zip names cols → NoDup (pre.*1 ++ names) → length cols = length names → length pc = length names →
    Forall2 holds fhs pc →
    ∃ t', fix_pages ty ps loads t (zip names fhs) = Ok t' ∧ contents t' = pre ++ zip names (zip_with app cols pc).
  Proof using Hps Hloads.
    induction names as [|n names IH]; intros fhs pc cols pre t Ht Hnd Hlc Hlp Hh.
    - exists t. by destruct fhs, cols.
    - destruct cols as [|col cols]; [done|]. destruct pc as [|p pc]; [done|].
      apply Forall2_cons_inv_r in Hh as (fh & fhs' & Hp & Hh & ->). cbn [zip_with fix_pages]. unfold _fix_xls_page.
      rewrite (holds_unpack fh p Hp). cbn [res_bind].
      assert (n ∉ pre.*1) as Hn.
      { apply list.NoDup_app in Hnd as (_ & Hd & _). intros Hin. apply (Hd n Hin). left. }
      assert (dget (contents t) n = Some col) as Hg by (rewrite Ht; by apply dget_at).
      rewrite contents_dget in Hg. destruct (dget t n) as [c|] eqn:Ec; cbn in Hg; [|done]. injection Hg as Hg.
      cbn [res_bind].
      destruct (IH fhs' pc cols (pre ++ [(n, col ++ p)]) (dset t n (col_extend ty ps c p))) as (t' & Ht' & Hc).
      + rewrite contents_dset, Ht. cbn [zip_with]. rewrite dset_at by done. rewrite col_extend_iter, Hg by done. by rewrite <- app_assoc.
      + by rewrite fmap_app, <- app_assoc.
      + cbn in Hlc. lia.
      + cbn in Hlp. lia.
      + done.
      + exists t'. split; [done|]. rewrite Hc, <- app_assoc. done.
  Qed.

  Lemma write_row_spec fhs pc row : Forall2 holds fhs pc → length row = length fhs → Forall (storable size) row →
    ∃ fhs', write_row dumps fhs row = Ok fhs' ∧ Forall2 holds fhs' (add_row pc row).
  Proof.
    intros H. revert row. induction H as [|fh vs fhs pc Hh _ IH]; intros row Hl Hs.
    - exists []. destruct row; [|done]. split; [done|constructor].
    - destruct row as [|v row]; [done|]. apply list.Forall_cons in Hs as [Hs1 Hs2].
      destruct (IH row) as (fhs' & E & Hf); [cbn in Hl; lia|done|].
      destruct (pack_ok dumps v Hs1) as [b Hb]. cbn [write_row]. rewrite Hb. cbn [res_bind]. rewrite E. cbn [res_map].
      exists ((fh ++ b) :: fhs'). split; [done|]. unfold add_row. cbn [zip_with]. constructor; [|done].
      destruct Hh as (Ha & bs & Hbs & ->). split; [apply Forall_app; split; [done|by constructor]|].
      exists (bs ++ [b]). split; [apply Forall2_app; [done|by constructor]|]. by rewrite concat_app; cbn; rewrite app_nil_r.
  Qed.

  Lemma write_row_inv fhs row fhs' : write_row dumps fhs row = Ok fhs' → length row = length fhs →
    Forall (λ v, ∃ b, pack dumps v = Ok b) row ∧ length fhs' = length fhs.
  Proof.
    revert row fhs'. induction fhs as [|fh fhs IH]; intros row fhs' H Hl.
    - destruct row; [|done]. injection H as <-. split; [constructor|done].
    - destruct row as [|v row]; [done|]. cbn [write_row] in H. destruct (pack dumps v) as [b|e] eqn:Eb; cbn [res_bind] in H; [|done].
      destruct (write_row dumps fhs row) as [r|e] eqn:Er; cbn [res_map] in H; [|done]. injection H as <-.
      destruct (IH row r Er) as [H1 H2]; [cbn in Hl; lia|]. split; [constructor; eauto|]. cbn. lia.
  Qed.

  Definition pick (used : list nat) (row : list (xcell O)) : list (xcell O) := map (λ i, cleaned (cell_at i row)) used.
  Local Notation blank := (λ v : xcell O, v = XNone).

  Lemma skip_test s row :
    (match s with SkipAll => all_none row | SkipAny => any_none row | SkipNone => false end) = negb (bool_decide (keeps blank s row)).
  Proof.
    destruct s; cbn [keeps].
    - done.
    - unfold all_none. destruct (forallb _ row) eqn:E; symmetry; [apply negb_true_iff, bool_decide_eq_false | apply negb_false_iff, bool_decide_eq_true].
      + rewrite forallb_forall in E. rewrite list.Exists_exists. intros (v & Hin & Hv). apply elem_of_list_In in Hin.
        apply E, bool_decide_eq_true in Hin. done.
      + apply not_true_iff_false in E. rewrite forallb_forall in E. apply not_Forall_Exists; [apply _|].
        intros H. apply E. intros v Hv. apply bool_decide_eq_true. rewrite list.Forall_forall in H. apply H. by apply elem_of_list_In.
    - unfold any_none. destruct (existsb _ row) eqn:E; symmetry; [apply negb_true_iff, bool_decide_eq_false | apply negb_false_iff, bool_decide_eq_true].
      + apply existsb_exists in E as (v & Hin & Hv). apply bool_decide_eq_true in Hv. rewrite list.Forall_forall. intros H.
        apply (H v); [by apply elem_of_list_In|done].
      + apply not_true_iff_false in E. rewrite list.Forall_forall. intros v Hin Hv. apply E. apply existsb_exists. exists v.
        split; [by apply elem_of_list_In|]. by apply bool_decide_eq_true.
  Qed.

  Lemma pick_spec used row : (∀ i, i ∈ used → (i < length row)%nat) →
    JsonTable.map_res (λ i, match row !! i with Some v => Ok (strip_escape v) | None => Err IndexError end) used = Ok (pick used row).
  Proof.
    induction used as [|i used IH]; intros H; [done|]. cbn [JsonTable.map_res pick map].
    destruct (lookup_lt_is_Some_2 row i) as [v Hv]; [apply H; left|]. unfold cell_at. rewrite Hv. cbn [res_bind default from_option].
    rewrite IH by (intros; apply H; by right). by rewrite strip_escape_cleaned.
  Qed.

  Lemma pick_length used row : length (pick used row) = length used.
  Proof. apply map_length. Qed.

  Lemma read_rows_spec s used names rows : ∀ (t : table) fhs idx cols pc,
    NoDup names → length used = length names → Forall (λ row, ∀ i, i ∈ used → (i < length row)%nat) rows →
    contents t = zip names cols → length cols = length names → length pc = length names →
    (fhs = None ∧ idx = 0 ∧ pc = replicate (length names) [] ∨ ∃ f, fhs = Some f ∧ Forall2 holds f pc) →
    Forall (Forall (storable size)) (filter (keeps blank s) (map (pick used) rows)) →
    ∃ t', read_rows ty ps dumps loads s used names rows t fhs idx = Ok t' ∧
      contents t' = zip names (fold_left add_row (filter (keeps blank s) (map (pick used) rows)) (zip_with app cols pc)).
  Proof using Hps Hloads.
    induction rows as [|row rows IH]; intros t fhs idx cols pc Hnd Hused Hw Ht Hlc Hlp Hinv Hst.
    - cbn [read_rows map]. rewrite filter_nil. cbn [fold_left]. destruct Hinv as [(-> & _ & ->)|(f & -> & Hf)].
      + exists t. split; [done|]. rewrite Ht, <- Hlc, zip_app_nil. done.
      + destruct (fix_pages_spec names f pc cols [] t) as (t' & E & H); try done. exists t'. done.
    - cbn [read_rows]. apply list.Forall_cons in Hw as [Hw1 Hw2]. rewrite pick_spec by done. cbn [res_bind].
      rewrite skip_test. cbn [map] in *.
      destruct (decide (keeps blank s (pick used row))) as [Hk|Hk].
      2: { rewrite bool_decide_eq_false_2 by done. cbn [negb]. rewrite filter_cons_False in Hst |- * by done. by apply IH. }
      rewrite bool_decide_eq_true_2 by done. cbn [negb]. rewrite filter_cons_True in Hst |- * by done.
      apply list.Forall_cons in Hst as [Hs1 Hs2]. cbn [fold_left].
      assert (∃ t1 f1 cols1 pc1, (if idx mod ps =? 0 then
                        res_map (λ t, (t, replicate (length names) []))
                          (match fhs with Some fhs => fix_pages ty ps loads t (zip names fhs) | None => Ok t end)
                      else Ok (t, default [] fhs)) = Ok (t1, f1) ∧ Forall2 holds f1 pc1 ∧ contents t1 = zip names cols1 ∧
            length cols1 = length names ∧ length pc1 = length names ∧ zip_with app cols1 pc1 = zip_with app cols pc)
        as (t1 & f1 & cols1 & pc1 & -> & Hf1 & Ht1 & Hlc1 & Hlp1 & Hsame).
      { assert (Forall2 holds (replicate (length names) []) (replicate (length names) [])) as Hrep.
        { clear. induction (length names); cbn; constructor; [apply holds_nil|done]. }
        destruct Hinv as [(-> & -> & ->)|(f & -> & Hf)].
        - rewrite Z.mod_0_l by lia. cbn. exists t, (replicate (length names) []), cols, (replicate (length names) []).
          split_and!; try done.
        - destruct (Z.eqb_spec (idx mod ps) 0) as [Hz|Hz].
          + destruct (fix_pages_spec names f pc cols [] t) as (t' & E & H); try done. rewrite E. cbn [res_map].
            exists t', (replicate (length names) []), (zip_with app cols pc), (replicate (length names) []).
            assert (length (zip_with app cols pc) = length names) as Hl by (rewrite zip_with_length; lia).
            split_and!; try done; [by rewrite replicate_length|]. rewrite <- Hl. apply zip_app_nil.
          + cbn [default from_option]. exists t, f, cols, pc. split_and!; done. }
      cbn [res_bind fst snd].
      destruct (write_row_spec f1 pc1 (pick used row) Hf1) as (f2 & -> & Hf2); [|done|].
      { rewrite pick_length, (Forall2_length _ _ _ Hf1). congruence. }
      cbn [res_bind].
      destruct (IH t1 (Some f2) (idx + 1) cols1 (add_row pc1 (pick used row))) as (t' & E & H); try done.
      { rewrite add_row_length; [done|]. rewrite pick_length. congruence. }
      { right. eauto. }
      exists t'. split; [done|]. rewrite H, zip_app_add by congruence. by rewrite Hsame.
  Qed.

  (** nothing else is read *)
  Lemma read_rows_inv s used names rows : ∀ (t : table) fhs idx t',
    length used = length names → Forall (λ row, ∀ i, i ∈ used → (i < length row)%nat) rows →
    (fhs = None ∧ idx = 0 ∨ ∃ f, fhs = Some f ∧ length f = length names) →
    read_rows ty ps dumps loads s used names rows t fhs idx = Ok t' →
    Forall (Forall (λ v, ∃ b, pack dumps v = Ok b)) (filter (keeps blank s) (map (pick used) rows)).
  Proof using Hps.
    induction rows as [|row rows IH]; intros t fhs idx t' Hused Hw Hinv H; [constructor|].
    cbn [read_rows] in H. apply list.Forall_cons in Hw as [Hw1 Hw2]. rewrite pick_spec in H by done. cbn [res_bind] in H.
    rewrite skip_test in H. cbn [map].
    destruct (decide (keeps blank s (pick used row))) as [Hk|Hk].
    2: { rewrite bool_decide_eq_false_2 in H by done. cbn [negb] in H. rewrite filter_cons_False by done. by eapply IH. }
    rewrite bool_decide_eq_true_2 in H by done. cbn [negb] in H. rewrite filter_cons_True by done.
    match type of H with res_bind ?x _ = _ => destruct x as [[t1 f1]|e] eqn:E end; cbn [res_bind fst snd] in H; [|done].
    assert (length f1 = length names) as Hl1.
    { destruct Hinv as [(-> & ->)|(f & -> & Hf)].
      - rewrite Z.mod_0_l in E by lia. cbn in E. injection E as _ <-. apply replicate_length.
      - destruct (idx mod ps =? 0).
        + destruct (fix_pages _ _ _ _ _); cbn in E; [|done]. injection E as _ <-. apply replicate_length.
        + cbn in E. injection E as _ <-. done. }
    destruct (write_row dumps f1 (pick used row)) as [f2|e] eqn:Ew; cbn [res_bind] in H; [|done].
    apply write_row_inv in Ew as [H1 H2]; [|rewrite pick_length; congruence]. constructor; [done|].
    eapply IH; [done|done| |exact H]. right. exists f2. split; [done|]. congruence.
  Qed.
End reader.
