(** Lemmas on the iterators of pages. *)
From Verif.Proof Require Import Hdf5Proofs.
From Verif.Model Require Import Hdf5 Iterate.
Local Open Scope list_scope.
Local Open Scope Z_scope.

Lemma count_pos {A} (P : A → Prop) `{∀ x, Decision (P x)} l : 0 < count_if P l ↔ ∃ x, x ∈ l ∧ P x.
Proof.
  unfold count_if. split.
  - intros H1. destruct (filter P l) as [|x l'] eqn:E; [simpl in H1; lia|]. exists x.
    assert (x ∈ filter P l) as Hx by (rewrite E; apply elem_of_list_here). apply elem_of_list_filter in Hx. naive_solver.
  - intros (x & Hx & HP). assert (x ∈ filter P l) as Hf by (by apply elem_of_list_filter).
    destruct (filter P l); [by apply elem_of_nil in Hf|simpl; lia].
Qed.

Lemma count_map (k : kind) cs : count_if (λ k', k' = k) (map kind_of cs) = kind_count cs k.
Proof.
  unfold kind_count, count_if. induction cs as [|c cs IH]; [done|].
  cbn [map]. destruct (decide (kind_of c = k)).
  - rewrite !filter_cons_True by done. cbn [length]. lia.
  - rewrite !filter_cons_False by done. exact IH.
Qed.

Lemma object_counts p : page_array p = AObject → native_ok p →
  ∀ k n, (k, n) ∈ page_dtypes p ↔ 0 < n ∧ n = kind_count (page_cells p) k.
Proof. unfold native_ok. intros ->. cbn. intros [_ H] k n. rewrite <- count_map. apply H. Qed.

Lemma valid_objects p k : page_array p = AObject → native_ok p →
  valid_kind p k = true ↔ Forall (λ v, kind_of v = k) (page_cells p).
Proof.
  intros Ha Hp. pose proof (object_counts p Ha Hp) as Hc. unfold valid_kind, get_page_types. rewrite Ha, forallb_forall. split.
  - intros H. apply list.Forall_forall. intros v Hv.
    specialize (H (kind_of v, kind_count (page_cells p) (kind_of v))).
    assert (0 < kind_count (page_cells p) (kind_of v)) as Hpos by (apply count_pos; by exists v).
    rewrite <- elem_of_list_In in H. specialize (H (proj2 (Hc _ _) (conj Hpos eq_refl))). cbn in H.
    apply orb_true_iff in H as [H%bool_decide_eq_true|H]; [done|]. apply negb_true_iff, Z.ltb_ge in H. lia.
  - intros H [k' n] Hin. rewrite <- elem_of_list_In in Hin. apply Hc in Hin as [Hn ->]. cbn.
    apply orb_true_iff. left. apply bool_decide_eq_true. apply count_pos in Hn as (v & Hv & <-).
    apply (proj1 (list.Forall_forall _ _) H v Hv).
Qed.

Lemma convert_all k vs : Forall (λ v, kind_of v = k) vs → convert k vs = (vs, None).
Proof. induction 1 as [|v vs H _ IH]; [done|]. simpl. by rewrite decide_True, IH. Qed.

Lemma not_all k vs : ¬ Forall (λ v, kind_of v = k) vs → ∃ v, v ∈ vs ∧ kind_of v ≠ k.
Proof.
  intros H. destruct (decide (Exists (λ v, kind_of v ≠ k) vs)) as [E|E].
  - apply list.Exists_exists in E. naive_solver.
  - exfalso. apply H, list.Forall_forall. intros v Hv. destruct (decide (kind_of v = k)) as [|N]; [done|].
    exfalso. apply E, list.Exists_exists. by exists v.
Qed.

(** one page: all its values, or an exception because of a value of another kind *)
Definition page_read (k : kind) (f : native_page → yielded) (p : native_page) : Prop :=
  (f p = (page_cells p, None) ∧ Forall (λ v, kind_of v = k) (page_cells p)) ∨
  (f p = ([], Some ValueError) ∧ ∃ v, v ∈ page_cells p ∧ kind_of v ≠ k).

Lemma read_pages k f pages : Forall (page_read k f) pages → read_as k pages (iterate_pages f pages).
Proof.
  induction 1 as [|p pages [[Hf Hk]|[Hf Hv]] _ IH]; simpl.
  - exists [], []. split; [done|]. split; [constructor|]. split; [done|]. by left.
  - rewrite Hf. destruct IH as (b & a & -> & Hb & Hr & Ha). exists (p :: b), a. split; [done|].
    unfold column_cells in *. simpl. split; [by apply Forall_app|]. split; [by rewrite Hr|done].
  - rewrite Hf. exists [], (p :: pages). split; [done|]. split; [constructor|]. split; [done|]. right. by exists p, pages.
Qed.

Lemma object_read k p : page_array p = AObject → native_ok p → page_read k (object_values k) p.
Proof.
  intros Ha Hp. unfold page_read, object_values. pose proof (valid_objects p k Ha Hp) as Hv.
  destruct (valid_kind p k) eqn:E.
  - left. assert (Forall (λ v, kind_of v = k) (page_cells p)) as HF by (by apply Hv). split; [by apply convert_all|done].
  - right. split; [done|]. apply not_all. intros HF. by apply Hv in HF.
Qed.

Lemma other_kind k k' p : holds (page_array p) = Some k' → native_ok p → page_cells p ≠ [] → k' ≠ k →
  ∃ v, v ∈ page_cells p ∧ kind_of v ≠ k.
Proof.
  unfold native_ok. intros -> H Hne Hk. destruct (page_cells p) as [|v vs]; [done|]. inversion H; subst.
  exists v. split; [apply elem_of_list_here|done].
Qed.

Lemma typed_page k p : k ∈ [KBool; KInt; KFloat; KStr] → native_ok p → page_cells p ≠ [] → page_read k (iterate_page (Some k)) p.
Proof.
  intros Hk Hp Hne. destruct (page_array p) eqn:Ha.
  all: repeat (apply elem_of_cons in Hk as [->|Hk]); try (by apply elem_of_nil in Hk).
  all: unfold page_read, iterate_page, iterate_int_page, iterate_float_page, iterate_boolean_page, iterate_string_page; rewrite Ha.
  all: try (by apply object_read).
  all: first
    [ right; split; [done|]; eapply other_kind; [by rewrite Ha|exact Hp|exact Hne|done]
    | left; split; [done|]; unfold native_ok in Hp; rewrite Ha in Hp; exact Hp ].
Qed.

Lemma typed_column k pages : k ∈ [KBool; KInt; KFloat; KStr] → Forall native_ok pages → Forall (λ p, page_cells p ≠ []) pages →
  read_as k pages (iterate_column (Some k) pages).
Proof.
  intros Hk Hp Hne. apply read_pages. apply list.Forall_forall. intros p Hin. apply typed_page; [done| |].
  - by apply (proj1 (list.Forall_forall _ _) Hp).
  - by apply (proj1 (list.Forall_forall _ _) Hne).
Qed.

Lemma object_column pages : iterate_column None pages = (column_cells pages, None).
Proof. induction pages as [|p pages IH]; [done|]. unfold iterate_column in *. cbn -[iterate_pages]. cbn [iterate_pages].
  change (iterate_page None p) with (page_cells p, None : option exn). cbn iota beta. by rewrite IH. Qed.

Lemma valid_array k k' p : holds (page_array p) = Some k' →
  valid_kind p k = bool_decide (k' = k) || bool_decide (page_cells p = []).
Proof.
  intros H. unfold valid_kind, get_page_types.
  assert (∀ vs : list cell, negb (0 <? zlen vs) = bool_decide (vs = [])) as E.
  { intros [|v vs]; [done|]. rewrite bool_decide_eq_false_2 by done. unfold zlen. simpl length.
    apply negb_false_iff, Z.ltb_lt. lia. }
  destruct (page_array p); cbn in H; inversion H; subst; cbn [forallb fst snd]; by rewrite andb_true_r, E.
Qed.

Lemma date_page k p : k ∈ [KDate; KDateTime] → native_ok p → page_read k (iterate_dates_page k) p.
Proof.
  intros Hk Hp. unfold page_read, iterate_dates_page. destruct (holds (page_array p)) as [k'|] eqn:Hh.
  - rewrite (valid_array k k') by done. destruct (page_cells p) as [|v vs] eqn:Hc.
    + rewrite orb_true_r. left. split; [|constructor]. destruct (page_array p); try done.
    + rewrite (bool_decide_eq_false_2 (v :: vs = [])) by done. rewrite orb_false_r.
      pose proof Hp as Hp'. unfold native_ok in Hp'. rewrite Hh, Hc in Hp'.
      case_bool_decide as E.
      * subst k'. left. split; [|done].
        repeat (apply elem_of_cons in Hk as [->|Hk]); try (by apply elem_of_nil in Hk);
          destruct (page_array p); cbn in Hh; try done.
      * right. split; [done|]. rewrite <- Hc. eapply other_kind; [exact Hh|done|by rewrite Hc|done].
  - assert (page_array p = AObject) as Ha by (by destruct (page_array p)). rewrite Ha.
    destruct (object_read k p Ha Hp) as [[H1 H2]|[H1 H2]]; unfold object_values in H1.
    + left. split; [|done]. pose proof (proj2 (valid_objects p k Ha Hp) H2) as ->.
      rewrite (convert_all k) by done.
      repeat (apply elem_of_cons in Hk as [->|Hk]); try (by apply elem_of_nil in Hk); done.
    + right. split; [|done]. destruct (valid_kind p k) eqn:E; [|done]. exfalso.
      apply (valid_objects p k Ha Hp) in E. destruct H2 as (v & Hv & N). apply N.
      apply (proj1 (list.Forall_forall _ _) E v Hv).
Qed.

Lemma date_column k pages : k ∈ [KDate; KDateTime] → Forall native_ok pages → read_as k pages (iterate_dates k pages).
Proof.
  intros Hk Hp. apply read_pages. eapply List.Forall_impl; [|exact Hp]. intros p H. by apply date_page.
Qed.

Lemma item_from pages i cnt : cnt <= i →
  column_item pages i cnt = match column_cells pages !! Z.to_nat (i - cnt) with Some v => Ok v | None => Err IndexError end.
Proof.
  revert cnt. induction pages as [|p pages IH]; intros cnt Hi; [done|]. simpl. unfold column_cells in *. simpl.
  assert (Hz : zlen (page_cells p) = Z.of_nat (length (page_cells p))) by done.
  destruct (Z.leb_spec (cnt + zlen (page_cells p)) i) as [H|H].
  - rewrite IH by done. rewrite lookup_app_r by lia.
    by replace (Z.to_nat (i - cnt) - length (page_cells p))%nat with (Z.to_nat (i - (cnt + zlen (page_cells p)))) by lia.
  - unfold page_item. rewrite (proj2 (Z.leb_le _ _)), (proj2 (Z.ltb_lt _ _)) by lia. cbn [andb].
    rewrite lookup_app_l by lia. done.
Qed.

Lemma item_negative pages i : i < 0 → column_item pages i 0 = Err IndexError.
Proof.
  intros Hi. destruct pages as [|p pages]; [done|]. cbn [column_item].
  assert (0 <= zlen (page_cells p)) by apply Nat2Z.is_nonneg.
  destruct (Z.leb_spec (0 + zlen (page_cells p)) i); [lia|]. unfold page_item. destruct (Z.leb_spec 0 (i - 0)); [lia|done].
Qed.

(** *** kinds of a column *)
Lemma count_add l k n k' : count_of (add_type l k n) k' = count_of l k' + (if decide (k = k') then n else 0).
Proof.
  induction l as [|[k1 m] l IH]; simpl; [destruct (decide (k = k')); lia|].
  destruct (decide (k1 = k)) as [->|N]; simpl.
  - destruct (decide (k = k')); lia.
  - destruct (decide (k1 = k')) as [->|N2]; [|done]. rewrite decide_False by done. lia.
Qed.

Lemma count_fold l acc k : NoDup l.*1 →
  count_of (fold_left (λ acc e, add_type acc e.1 e.2) l acc) k = count_of acc k + count_of l k.
Proof.
  revert acc. induction l as [|[k1 n] l IH]; intros acc Hn; simpl; [lia|]. inversion Hn; subst. rewrite IH by done.
  rewrite count_add. cbn [fst snd]. destruct (decide (k1 = k)) as [->|N]; [|lia].
  assert (count_of l k = 0) as ->; [|lia]. clear -H1. induction l as [|[k2 m] l IH2]; [done|]. simpl in *.
  apply not_elem_of_cons in H1 as [H1 H2]. rewrite decide_False by done. by apply IH2.
Qed.

Lemma count_in l k n : NoDup l.*1 → (k, n) ∈ l → count_of l k = n.
Proof.
  induction l as [|[k1 m] l IH]; [by intros _ ?%elem_of_nil|]. simpl. intros Hn Hin. inversion Hn; subst.
  apply elem_of_cons in Hin as [E|Hin]; [inversion E; by rewrite decide_True|].
  rewrite decide_False; [by apply IH|]. intros ->. apply H1. apply (elem_of_list_fmap_1 fst _ _ Hin).
Qed.
Lemma count_not_in l k : k ∉ l.*1 → count_of l k = 0.
Proof.
  induction l as [|[k1 m] l IH]; [done|]. simpl. intros [H1 H2]%not_elem_of_cons. rewrite decide_False by done. by apply IH.
Qed.

Lemma kind_count_app vs ws k : kind_count (vs ++ ws) k = kind_count vs k + kind_count ws k.
Proof. unfold kind_count, count_if. rewrite list.filter_app, app_length. lia. Qed.

Lemma kind_count_all vs k k' : Forall (λ v, kind_of v = k) vs → kind_count vs k' = if decide (k = k') then zlen vs else 0.
Proof.
  unfold kind_count, count_if. induction 1 as [|v vs Hv _ IH]; [by destruct (decide _)|].
  rewrite filter_cons. rewrite Hv. destruct (decide (k = k')); simpl; lia.
Qed.

Lemma page_types_ok p k : native_ok p → NoDup (get_page_types p).*1 ∧ count_of (get_page_types p) k = kind_count (page_cells p) k.
Proof.
  intros Hp. destruct (holds (page_array p)) as [k'|] eqn:Hh.
  - pose proof Hp as Hp'. unfold native_ok in Hp'. rewrite Hh in Hp'. rewrite (kind_count_all _ k') by done.
    unfold get_page_types. destruct (page_array p); cbn in Hh; inversion Hh; subst; cbn; (split; [|done]);
      apply NoDup_singleton.
  - assert (page_array p = AObject) as Ha by (by destruct (page_array p)).
    pose proof (object_counts p Ha Hp) as Hc. unfold get_page_types. rewrite Ha.
    assert (NoDup (page_dtypes p).*1) as Hn.
    { unfold native_ok in Hp. rewrite Hh in Hp. destruct Hp as [Hn _]. revert Hn Hc. generalize (page_dtypes p) as l.
      clear. intros l Hn Hc. assert (∀ k n, (k, n) ∈ l → n = kind_count (page_cells p) k) as H by (intros; by apply Hc).
      clear Hc. induction l as [|[k n] l IH]; [constructor|]. inversion Hn; subst. simpl. constructor.
      - intros ([k2 m] & E & Hin)%elem_of_list_fmap. cbn in E. subst k2.
        pose proof (H k n (elem_of_list_here _ _)). pose proof (H k m (elem_of_list_further _ _ _ Hin)). subst. done.
      - apply IH; [done|]. intros k2 m Hin. apply H. by apply elem_of_list_further. }
    split; [done|]. destruct (decide (0 < kind_count (page_cells p) k)) as [Hpos|Hz].
    + apply count_in; [done|]. by apply Hc.
    + rewrite count_not_in.
      * assert (0 <= kind_count (page_cells p) k) by (unfold kind_count, count_if; lia). lia.
      * intros ([k2 m] & E & Hin)%elem_of_list_fmap. cbn in E. subst k2. apply Hc in Hin as [? ->]. done.
Qed.

Lemma column_types_ok pages k : Forall native_ok pages → count_of (get_column_types pages) k = kind_count (column_cells pages) k.
Proof.
  unfold get_column_types, column_cells. intros H.
  assert (∀ acc, count_of (fold_left (λ acc p, fold_left (λ acc e, add_type acc e.1 e.2) (get_page_types p) acc) pages acc) k =
     count_of acc k + kind_count (concat (page_cells <$> pages)) k) as G.
  { induction H as [|p pages Hp _ IH]; intros acc; simpl; [unfold kind_count, count_if; simpl; lia|].
    rewrite IH. destruct (page_types_ok p k Hp) as [Hn Hk]. rewrite count_fold by done. rewrite Hk, kind_count_app. unfold fmap. lia. }
  by rewrite G.
Qed.

(** *** read_page *)
Lemma np_array_same lib vs :
  (∃ v, v ∈ vs ∧ kind_of v ∈ [KNone; KDate; KTime; KDateTime]) ∨ (∃ k, Forall (λ v, kind_of v = k) vs) → np_array lib vs = vs.
Proof.
  intros [(v & Hv & Hk)|[k Hk]].
  - unfold np_array. assert (existsb is_object vs = true) as ->; [|done]. apply existsb_exists. exists v.
    rewrite <- elem_of_list_In. split; [done|]. repeat (apply elem_of_cons in Hk as [Hk|Hk]); try (by apply elem_of_nil in Hk);
      by destruct v.
  - apply (np_array_kept lib k). eapply List.Forall_impl; [|exact Hk]. intros v Hv. cbn in Hv. subst k. unfold of_kind_or_none. destruct v; cbn; first [by left | by right].
Qed.

Lemma read_page_ok lib p : page_cells p ≠ [] →
  page_array p ≠ AObject ∨ (∃ v, v ∈ page_cells p ∧ kind_of v ∈ [KNone; KDate; KTime; KDateTime])
    ∨ (∃ k, Forall (λ v, kind_of v = k) (page_cells p)) →
  read_page lib p = Ok (page_cells p).
Proof.
  intros Hne H. unfold read_page. destruct (page_cells p) as [|v vs] eqn:E; [done|].
  destruct (page_array p) eqn:Ha; try done. f_equal. apply np_array_same. naive_solver.
Qed.
