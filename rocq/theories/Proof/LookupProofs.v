(** Lookup; the cases in which joins, reindex and lookup do not do what is claimed. *)
From stdpp Require Import strings.
From Verif.Spec Require Import Counts Rows Join PyHash.
From Verif.Model Require Import Joins.
From Verif.Proof Require Import DictLemmas SliceLemmas ColumnRead ColumnMisc ColumnStatsProofs
  SmallProofs NamesProofs TableBase TableProofs TableRows TableSelect TableMisc JoinBase JoinProofs JoinFinal.
From Coq Require Import ZifyBool.
Local Open Scope Z_scope.

Lemma find_row2_spec {R} (hold : R → bool) (l pre : list R) :
  (∀ x, x ∈ pre → hold x = false) → first_match hold (pre ++ l) (find_row2 hold (zlen pre) l).
Proof.
  revert pre. induction l as [|x l IH]; intros pre Hpre; cbn [find_row2].
  { rewrite app_nil_r. done. }
  destruct (hold x) eqn:E.
  - split; [lia|]. split.
    + exists x. split; [|done]. rewrite Nat2Z.id. by apply list_lookup_middle.
    + intros i y Hi Hy. apply Hpre. rewrite lookup_app_l in Hy by lia. by eapply elem_of_list_lookup_2.
  - replace (zlen pre + 1) with (zlen (pre ++ [x])) by (rewrite app_length; simpl; lia).
    replace (pre ++ x :: l) with ((pre ++ [x]) ++ l) by (by rewrite <- app_assoc).
    apply IH. intros y [?| ->%elem_of_list_singleton]%elem_of_app; auto.
Qed.

Lemma find_row2_range {R} (hold : R → bool) (l : list R) :
  match find_row2 hold 0 l with Some j => 0 <= j < zlen l | None => True end.
Proof.
  assert (H : first_match hold l (find_row2 hold 0 l)).
  { apply (find_row2_spec hold l []). by intros ? ?%elem_of_nil. }
  destruct (find_row2 hold 0 l) as [j|]; [|done]. destruct H as (Hj & (x & Hx%lookup_lt_Some & _) & _). lia.
Qed.

Section lookup.
  Context {A T : Type} `{EqDecision T} (ty : A → T) (none : A) (ps : Z).
  Context (ps_pos : 0 < ps).
  Context (hash : list A → Z) (hold : list A → list A → bool).
  Notation tbl := (table string A T).

  Lemma lookup_loop_spec (all rows1 rows2 : list (list A)) cache :
    (∀ r, r ∈ rows1 → r ∈ all) →
    (∀ r1 r2, r1 ∈ all → r2 ∈ all → hash r1 = hash r2 → r1 = r2) →
    (∀ h i, dget cache h = Some i → ∃ r, r ∈ all ∧ h = hash r ∧ i = default (-1) (find_row2 (hold r) 0 rows2)) →
    lookup_loop hash hold rows1 rows2 cache = map (λ r, default (-1) (find_row2 (hold r) 0 rows2)) rows1.
  Proof.
    clear ty none ps_pos ps EqDecision0 T.
    intros Hsub Hinj. revert cache. induction rows1 as [|r rows1 IH]; intros cache Hc; [done|].
    cbn [lookup_loop map]. destruct (dget cache (hash r)) as [i|] eqn:E.
    - f_equal.
      + unfold dget_or. rewrite E. apply Hc in E as (r' & Hr' & Hh & ->). simpl.
        rewrite (Hinj r r'); [done|apply Hsub; by left|done|done].
      + apply IH; [|done]. intros; apply Hsub; by right.
    - f_equal.
      + unfold dget_or. rewrite dget_dset, decide_True by done. done.
      + apply IH; [intros; apply Hsub; by right|]. intros h i. rewrite dget_dset. case_decide as Hd.
        * intros [= <-]. exists r. split; [apply Hsub; by left|]. by subst.
        * apply Hc.
  Qed.

  Lemma add_renamed_spec (cols : list (string * column A T)) (acc : tbl) :
    NoDup acc.*1 →
    ∃ r ns, add_renamed cols acc = Ok r ∧ fresh_names acc.*1 cols.*1 ns ∧ NoDup (acc.*1 ++ ns) ∧
      contents r = contents acc ++ zip ns (map (λ c, col_iter c.2) cols).
  Proof.
    clear ps_pos. revert acc. induction cols as [|[name c] cols IH]; intros acc Hnd.
    { exists acc, []. split; [done|]. split; [done|]. by rewrite !app_nil_r. }
    cbn [add_renamed]. destruct (unique_name_spec name acc.*1) as (nn & -> & Hfree & Hnn).
    rewrite dset_fresh by done.
    destruct (IH (acc ++ [(nn, c)])) as (r & ns & Hr & Hf & Hns & Hcr).
    { rewrite fmap_app. simpl. apply list.NoDup_app. split; [done|]. split; [|apply NoDup_singleton].
      intros x Hx ->%elem_of_list_singleton. done. }
    rewrite fmap_app in Hf, Hns. simpl in Hf, Hns.
    exists r, (nn :: ns). split; [done|]. split; [|split].
    - simpl. split; [done|]. split; [by destruct Hnn as [[_ ?]|[? _]]|]. split; [|done].
      by destruct Hnn as [[? _]|[_ ?]].
    - by rewrite <- app_assoc in Hns.
    - rewrite Hcr, contents_app, <- app_assoc. done.
  Qed.

  (** the values in the used columns *)
  Lemma sub_rows (t : tbl) n (cols : list string) :
    rect n (contents t) → cols ≠ [] → (∀ k, k ∈ cols → k ∈ t.*1) →
    tbl_rows none (omap (λ n, pair n <$> dget t n) cols : tbl)
    = Ok (row_keys none (λ x, x) (contents t) cols n).
  Proof.
    clear ps_pos. intros Hr Hne Hin. rewrite tbl_rows_spec. f_equal.
    assert (Hc : contents (omap (λ n, pair n <$> dget t n) cols : tbl)
      = map (λ k, (k, default [] (dget (contents t) k))) cols).
    { clear Hne. induction cols as [|k cols IH]; [done|].
      destruct (dget_in t k) as [c Hc]; [apply Hin; by left|]. simpl. rewrite Hc. simpl.
      f_equal; [by rewrite contents_dget, Hc|]. apply IH. intros; apply Hin; by right. }
    rewrite Hc. unfold rows, row_keys.
    rewrite (nrows_rect _ n).
    - apply map_ext. intros i. unfold row, row_key. rewrite map_map. apply map_ext. intros k. simpl.
      by rewrite field_dget.
    - unfold rect. apply Forall_fmap, list.Forall_forall. intros k Hk. simpl.
      destruct (dget_in t k) as [c Hk']; [by apply Hin|]. rewrite contents_dget, Hk'. simpl. by eapply rect_dget.
    - by destruct cols.
  Qed.

  Lemma rows_app (v w : view (N := string) (A := A)) n :
    v ≠ [] → rect n v → rect n w → rows none (v ++ w) = zip_with app (rows none v) (map (row none w) (seq 0 n)).
  Proof.
    intros Hne Hv Hw. unfold rows.
    rewrite (nrows_rect v n) by done.
    rewrite (nrows_rect (v ++ w) n); [|by apply list.Forall_app|by destruct v].
    generalize (seq 0 n). intros l. induction l as [|i l IH]; [done|]. simpl. rewrite IH. f_equal.
    unfold row. by rewrite map_app.
  Qed.

  Lemma seq_rows (w : view (N := string) (A := A)) n : rect n w → w ≠ [] → map (row none w) (seq 0 n) = rows none w.
  Proof. intros Hr Hne. unfold rows. by rewrite (nrows_rect w n). Qed.

  Lemma lookup_spec (t u : tbl) n m lcols rcols :
    NoDup t.*1 → NoDup u.*1 → t ≠ [] → u ≠ [] → rect n (contents t) → rect m (contents u) →
    lcols ≠ [] → rcols ≠ [] → (∀ k, k ∈ lcols → k ∈ t.*1) → (∀ k, k ∈ rcols → k ∈ u.*1) →
    let rows1 := row_keys none (λ x, x) (contents t) lcols n in
    let rows2 := row_keys none (λ x, x) (contents u) rcols m in
    (∀ r1 r2, r1 ∈ rows1 → r2 ∈ rows1 → hash r1 = hash r2 → r1 = r2) →
    (Z.of_nat n <= ps ∧ ∀ name c p, dget u name = Some c → p ∈ c → pdata p ≠ []) ∨
    (∀ r1, r1 ∈ rows1 → ∃ r2, r2 ∈ rows2 ∧ hold r1 r2 = true) →
    ∃ r ns idx, lookup ty none ps hash hold lcols rcols t u = Ok r ∧
      names (contents r) = names (contents t) ++ ns ∧ NoDup (names (contents r)) ∧
      fresh_names (names (contents t)) (names (contents u)) ns ∧
      Forall2 (λ r1 o, first_match (hold r1) rows2 o) rows1 idx ∧
      rows none (contents r) = zip_with (λ row o, row ++ orow none (contents u) o) (rows none (contents t)) idx.
  Proof.
    intros Ht Hu Hte Hue Hrt Hru Hl Hr Hin1 Hin2. cbv zeta. intros Hinj Hside.
    set (rows1 := row_keys none (λ x, x) (contents t) lcols n) in *.
    set (rows2 := row_keys none (λ x, x) (contents u) rcols m) in *.
    set (F := λ r, find_row2 (hold r) 0 rows2).
    set (index := map (λ r, default (-1) (F r)) rows1).
    assert (Hloop : lookup_loop hash hold rows1 rows2 [] = index) by (by apply (lookup_loop_spec rows1)).
    assert (Hlen : length index = n).
    { unfold index, rows1, row_keys. by rewrite !map_length, seq_length. }
    assert (HF : ∀ r, first_match (hold r) rows2 (F r)).
    { intros r. apply (find_row2_spec (hold r) rows2 []). by intros ? ?%elem_of_nil. }
    assert (Hrange : ∀ r, match F r with Some j => 0 <= j | None => True end).
    { intros r. pose proof (find_row2_range (hold r) rows2) as H. fold (F r) in H. destruct (F r); [lia|done]. }
    assert (Hge : Forall (λ i, -1 <= i) index).
    { unfold index. apply Forall_fmap, Forall_true. intros r. simpl. specialize (Hrange r). destruct (F r); simpl; lia. }
    destruct (reindex_spec ty none ps ps_pos u index Hu Hge) as (second & Hsec & Hcs).
    { destruct Hside as [[Hps Hne]|Hall].
      - left. split; [lia|]. intros name c Hd. apply list.Forall_forall. intros p. by apply (Hne name c).
      - right. unfold index. intros (r & Hd & Hr1)%elem_of_list_fmap. destruct (Hall r Hr1) as (r2 & Hr2 & Hh).
        specialize (HF r). specialize (Hrange r). destruct (F r) as [j|]; simpl in *; [lia|].
        by rewrite (HF r2 Hr2) in Hh. }
    destruct (add_renamed_spec second t Ht) as (r & ns & Hadd & Hf & Hnd & Hcr).
    destruct (picked_rows none (contents u) (contents second) index) as (Hn2 & Hrec2 & Hrows2); [by destruct u|done|done|].
    rewrite <- contents_names in Hf, Hnd. rewrite <- (contents_names second), Hn2 in Hf.
    rewrite Hlen in Hrec2.
    assert (Hzip : zip ns (map (λ c, col_iter c.2) second) = zip ns (contents second).*2).
    { f_equal. unfold contents. change (map ?f second) with (f <$> second). by rewrite <- list_fmap_compose. }
    pose proof (fresh_names_length _ _ _ Hf) as Hlns. unfold names in Hlns. rewrite fmap_length in Hlns.
    assert (Hl2 : length (contents second) = length (contents u)).
    { apply (f_equal length) in Hn2. unfold names in Hn2. by rewrite !fmap_length in Hn2. }
    exists r, ns, (map F rows1). split; [|split; [|split; [|split; [done|split]]]].
    - unfold lookup. rewrite (sub_rows t n) by done. cbn [res_bind]. rewrite (sub_rows u m) by done. cbn [res_bind].
      fold rows1 rows2. rewrite Hloop, Hsec. cbn [res_bind]. rewrite tbl_copy_spec by done. exact Hadd.
    - rewrite Hcr, Hzip. unfold names. rewrite fmap_app, fst_zip; [done|]. rewrite fmap_length. lia.
    - rewrite Hcr, Hzip. unfold names. rewrite fmap_app, fst_zip; [done|]. rewrite fmap_length. lia.
    - apply Forall2_fmap_r. apply Forall_Forall2_diag. apply list.Forall_forall. intros x _. apply HF.
    - rewrite Hcr, Hzip.
      assert (Hrz : rect n (zip ns (contents second).*2)).
      { clear -Hrec2. revert ns. induction (contents second) as [|[k l] cs IH]; intros [|a ns]; simpl; try constructor.
        - by apply list.Forall_cons in Hrec2 as [? _].
        - apply IH. by apply list.Forall_cons in Hrec2 as [_ ?]. }
      rewrite (rows_app _ _ n) by (done || by destruct t).
      assert (Hsame : map (row none (zip ns (contents second).*2)) (seq 0 n) = rows none (contents second)).
      { rewrite <- (seq_rows (contents second) n Hrec2) by (destruct (contents second), u; done).
        apply map_ext. intros i. assert (Hlc : length ns = length (contents second)) by lia.
        clear -Hlc. revert ns Hlc. induction (contents second) as [|[k l] cs IH]; intros [|a ns] Hlc; try done.
        unfold row in *. simpl. f_equal. apply IH. by injection Hlc. }
      rewrite Hsame, Hrows2. unfold index. rewrite map_map.
      assert (Hlr : length (rows none (contents t)) = length rows1).
      { unfold rows, rows1, row_keys. rewrite !map_length, !seq_length. apply nrows_rect; [done|]. by destruct t. }
      clear -Hlr Hrange. revert Hlr. generalize (rows none (contents t)). generalize rows1. intros l.
      induction l as [|x l IH]; intros [|y k] Hlr; try done. simpl. f_equal; [|apply IH; by injection Hlr].
      f_equal. f_equal. unfold opt_ix. specialize (Hrange x). destruct (F x) as [j|]; simpl; [|done].
      destruct (Z.eqb_spec j (-1)); [lia|done].
  Qed.
End lookup.

(** ** Witnesses; cells are ints or None *)
Definition ocol (xs : list (option Z)) : column (option Z) unit := col_new (λ _, tt) 2 xs.
Definition otable (cs : list (string * list (option Z))) : table string (option Z) unit :=
  map (λ c, (c.1, ocol c.2)) cs.
(** a column whose only value was removed with [remove_all] *)
Definition emptied : column (option Z) unit :=
  col_remove_all (λ x y, bool_decide (x = y)) (ocol [Some 2]) [Some 2].
(** [hash] of a tuple of ints (None does not occur where this is used) *)
Definition oints_hash (key : list (option Z)) : Z := ints_hash (map (default 0) key).

Local Open Scope string_scope.

Lemma left_join_empty_page :
  let t := otable [("a", [Some 1%Z])] in
  let u : table string (option Z) unit := [("b", emptied)] in
  rect 1 (contents t) ∧ rect 0 (contents u) ∧ args_ok t u ["a"] ["b"] ["a"] ["b"] ∧
  join (λ _, tt) None 2 id id Left t u ["a"] ["b"] ["a"] ["b"] = Err IndexError.
Proof.
  simpl. split; [by repeat constructor|]. split; [by repeat constructor|].
  split; [|by vm_compute]. repeat split; try done; try set_solver. apply NoDup_singleton.
Qed.

Lemma outer_join_empty_page :
  let t : table string (option Z) unit := [("a", emptied)] in
  let u := otable [("b", [Some 1%Z])] in
  rect 0 (contents t) ∧ rect 1 (contents u) ∧ args_ok t u ["a"] ["b"] ["a"] ["b"] ∧
  join (λ _, tt) None 2 id id Outer t u ["a"] ["b"] ["a"] ["b"] = Err IndexError.
Proof.
  simpl. split; [by repeat constructor|]. split; [by repeat constructor|].
  split; [|by vm_compute]. repeat split; try done; try set_solver. apply NoDup_singleton.
Qed.

Lemma reindex_two_pages :
  let t := otable [("a", [Some 1%Z; Some 2%Z; Some 3%Z])] in
  reindex (λ _, tt) None 2 t [0%Z; (-1)%Z; 2%Z] = Err ValueError ∧
  ∃ r, reindex (λ _, tt) None 2 t [0%Z; 1%Z; (-1)%Z] = Ok r ∧ contents r = [("a", [Some 1%Z; Some 2%Z; None; None; None])].
Proof. split; [by vm_compute|]. eexists. split; by vm_compute. Qed.

Lemma lookup_two_pages :
  let t := otable [("a", [Some 1%Z; Some 2%Z; Some 3%Z])] in
  let u := otable [("b", [Some 3%Z; Some 1%Z])] in
  lookup (λ _, tt) None 2 oints_hash (λ r1 r2, bool_decide (r1 = r2)) ["a"] ["b"] t u = Err ValueError.
Proof. by vm_compute. Qed.

Lemma lookup_collision :
  let t := otable [("a", [Some (-1)%Z; Some (-2)%Z])] in
  let u := otable [("b", [Some (-1)%Z; Some (-2)%Z])] in
  ∃ r, lookup (λ _, tt) None 2 oints_hash (λ r1 r2, bool_decide (r1 = r2)) ["a"] ["b"] t u = Ok r ∧
    rows None (contents r) = [[Some (-1)%Z; Some (-1)%Z]; [Some (-2)%Z; Some (-1)%Z]].
Proof. eexists. split; by vm_compute. Qed.

Lemma drop_duplicates_collision :
  let t := otable [("a", [Some (-1)%Z; Some (-2)%Z])] in
  ∃ r, drop_duplicates (λ _, tt) None 2 id oints_hash t ["a"] = Ok r ∧ rows None (contents r) = [[Some (-1)%Z]].
Proof. eexists. split; by vm_compute. Qed.

Lemma criteria_hold_spec all_ (l : list bool) :
  criteria_hold all_ l = true ↔ if all_ then ∀ b, b ∈ l → b = true else ∃ b, b ∈ l ∧ b = true.
Proof.
  unfold criteria_hold. destruct all_.
  - rewrite negb_true_iff. split.
    + intros H b Hb. destruct b; [done|]. exfalso. apply not_true_iff_false in H. apply H.
      apply existsb_exists. exists false. by rewrite <-elem_of_list_In.
    + intros H. apply not_true_iff_false. intros (b & Hb%elem_of_list_In & Hn)%existsb_exists.
      apply H in Hb as ->. done.
  - rewrite existsb_exists. split; intros (b & Hb & ?); exists b; by rewrite elem_of_list_In || rewrite <-elem_of_list_In.
Qed.

Lemma side_value_spec {A T} (none : A) (t : table string A T) (cols : list string) (i : nat) (s : side) :
  (∀ n, side_name s = Some n → n ∈ cols ↔ n ∈ t.*1) →
  side_value cols (row_key none (λ x, x) (contents t) cols i) s
  = term_value none (contents t) i (side_name s) (side_literal s).
Proof.
  intros H. unfold side_value, term_value. destruct (side_name s) as [n|]; [|done]. specialize (H n eq_refl).
  assert (Hz : dget (zip cols (row_key none (λ x, x) (contents t) cols i)) n
    = if decide (n ∈ cols) then Some (field none (contents t) n i) else None).
  { unfold row_key. clear H. induction cols as [|c cols IH]; [done|]. cbn [map zip zip_with dget].
    destruct (decide (n = c)) as [->|Hne].
    - by rewrite decide_True by (by left).
    - change (zip_with pair cols _) with (zip cols (map (λ n, field none (contents t) n i) cols)).
      rewrite IH. destruct (decide (n ∈ cols)) as [Hin|Hin].
      + by rewrite decide_True by (by right).
      + rewrite decide_False; [done|]. rewrite elem_of_cons. naive_solver. }
  rewrite Hz. unfold names. change ((contents t).*1) with (names (contents t)).
  assert (names (contents t) = t.*1) as ->.
  { unfold names, contents. clear. induction t as [|[k c] t IH]; [done|]. cbn [map]. rewrite !fmap_cons. by f_equal. }
  destruct (decide (n ∈ cols)), (decide (n ∈ t.*1)); try done; tauto.
Qed.

Lemma criteria_spec {A T} (none : A) (t u : table string A T) (all_ : bool) (criteria : list criterion)
    (lcols rcols : list string) (i j : nat) :
  (∀ n, n ∈ lcols ↔ n ∈ t.*1 ∧ ∃ c, c ∈ criteria ∧ side_name c.1.2 = Some n) →
  (∀ n, n ∈ rcols ↔ n ∈ u.*1 ∧ ∃ c, c ∈ criteria ∧ side_name c.2 = Some n) →
  let meets (c : criterion) := c.1.1
      (term_value none (contents t) i (side_name c.1.2) (side_literal c.1.2))
      (term_value none (contents u) j (side_name c.2) (side_literal c.2)) = true in
  criteria_of all_ criteria lcols rcols (row_key none (λ x, x) (contents t) lcols i)
    (row_key none (λ x, x) (contents u) rcols j) = true ↔
  if all_ then ∀ c, c ∈ criteria → meets c else ∃ c, c ∈ criteria ∧ meets c.
Proof.
  intros Hl Hr meets. unfold criteria_of. rewrite criteria_hold_spec.
  assert (Heq : ∀ c : criterion, c ∈ criteria →
    c.1.1 (side_value lcols (row_key none (λ x, x) (contents t) lcols i) c.1.2)
      (side_value rcols (row_key none (λ x, x) (contents u) rcols j) c.2) = true ↔ meets c).
  { intros c Hc. unfold meets. rewrite (side_value_spec none t), (side_value_spec none u); [done| |].
    - intros n Hn. rewrite Hr. naive_solver.
    - intros n Hn. rewrite Hl. naive_solver. }
  destruct all_.
  - split.
    + intros H c Hc. apply Heq; [done|]. apply H. apply elem_of_list_In, in_map_iff. exists c. by rewrite <-elem_of_list_In.
    + intros H b Hb. apply elem_of_list_In, in_map_iff in Hb as (c & <- & Hc%elem_of_list_In). apply Heq; auto.
  - split.
    + intros (b & Hb & ->). apply elem_of_list_In, in_map_iff in Hb as (c & Hc' & Hc%elem_of_list_In).
      exists c. split; [done|]. by apply Heq.
    + intros (c & Hc & Hm). exists true. split; [|done]. apply elem_of_list_In, in_map_iff. exists c.
      rewrite <-elem_of_list_In. split; [by apply Heq|done].
Qed.
