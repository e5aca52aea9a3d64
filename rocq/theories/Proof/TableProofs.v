(** Tables: equality, adding rows, stacking, selecting, indexing. *)
From Verif.Spec Require Import Counts Rows.
From Verif.Model Require Import Table.
From Verif.Proof Require Import DictLemmas SliceLemmas ColumnRead ColumnMisc ColumnStatsProofs TableBase.
From Coq Require Import ZifyBool.
Local Open Scope Z_scope.

Lemma dict_ext {N V} `{EqDecision N} (d e : list (N * V)) :
  d.*1 = e.*1 → NoDup d.*1 → (∀ k, dget d k = dget e k) → d = e.
Proof.
  revert e. induction d as [|[n v] d IH]; intros [|[m w] e] Hk Hnd Hg; try done.
  assert (n = m) as -> by (by injection Hk).
  assert (d.*1 = e.*1) as Hk' by (by injection Hk). clear Hk.
  apply list.NoDup_cons in Hnd as [Hn Hnd]. simpl in Hg, Hn.
  pose proof (Hg m) as Hm. rewrite !decide_True in Hm by done. injection Hm as ->.
  f_equal. apply (IH e Hk' Hnd). intros k. specialize (Hg k).
  revert Hg. destruct (decide (k = m)) as [->|]; [intros _|done].
  rewrite (proj2 (dget_None d m)) by done. symmetry. apply dget_None. by rewrite <- Hk'.
Qed.

Section proofs.
  Context {N A T : Type} `{EqDecision N, EqDecision T} (ty : A → T) (none : A) (ps : Z).
  Implicit Types (t u : table N A T) (v w : view (N := N) (A := A)).

  Lemma forallb_in (l k : list N) : forallb (λ n, bool_decide (n ∈ k)) l = true ↔ ∀ n, n ∈ l → n ∈ k.
  Proof.
    rewrite forallb_forall. split; intros Hf n.
    - intros Hn%elem_of_list_In%Hf. by apply bool_decide_eq_true_1 in Hn.
    - intros Hn%elem_of_list_In. apply bool_decide_eq_true_2. by apply Hf.
  Qed.

  Lemma field_dget v n i : field none v n i = at_ none i (default [] (dget v n)).
  Proof.
    induction v as [|[m l] v IH]; simpl; [by destruct i|].
    destruct (decide (m = n)), (decide (n = m)); congruence || done.
  Qed.

  Lemma row_fields v i : NoDup (names v) → row none v i = map (λ n, field none v n i) (names v).
  Proof.
    unfold names. intros Hnd. unfold row. change (v.*1) with (map fst v). rewrite map_map.
    apply list_fmap_ext. intros j [n l] Hj. simpl. rewrite field_dget.
    rewrite (proj2 (dget_Some v n l Hnd)); [done|]. by eapply elem_of_list_lookup_2.
  Qed.

  (** ** C24 *)
  Lemma same_view_nrows R v w : NoDup (names v) → NoDup (names w) → same_view R v w → nrows v = nrows w.
  Proof.
    clear ty none.
    intros Hv Hw [Hn Hc].
    assert (H : ∀ v w R', NoDup (names v) → NoDup (names w) → same_view R' v w → (nrows v <= nrows w)%nat).
    { clear - EqDecision0. intros v w R Hv Hw [Hn Hc]. unfold nrows at 1. apply list_max_le, List.Forall_forall. intros x Hx%elem_of_list_In. revert x Hx.
      intros x ([n l] & -> & Hin)%elem_of_list_fmap. simpl.
      assert (n ∈ names w) as Hnw by (apply Hn; by apply (elem_of_list_fmap_1 fst) in Hin).
      apply dget_in in Hnw as [k Hk]. apply dget_Some in Hk; [|done].
      rewrite (Forall2_length _ _ _ (Hc _ _ _ Hin Hk)). by eapply nrows_le. }
    apply Nat.le_antisymm; [by eapply H|]. eapply (H w v (flip R)); [done|done|].
    split; [naive_solver|]. intros n l k Hl Hk. apply Forall2_flip. by eapply Hc.
  Qed.

  Section eq.
    Context (eqb neb : A → A → bool) (same_page : page A T → page A T → bool).
    Context (eqb_refl : ∀ x, eqb x x = true) (neb_negb : ∀ x y, neb x y = negb (eqb x y))
            (same_eq : ∀ p q : page A T, same_page p q = true → p = q).
    Notation R := (λ x y, eqb x y = true).

    Lemma tbl_eq_spec t u :
      NoDup t.*1 → NoDup u.*1 →
      tbl_eq eqb neb same_page false t u = true ↔
      (nrows (contents t) = 0%nat ∧ nrows (contents u) = 0%nat) ∨ same_view R (contents t) (contents u).
    Proof.
      clear ty none.
      intros Ht Hu. unfold tbl_eq. rewrite !tbl_len_spec.
      set (a := nrows (contents t)). set (b := nrows (contents u)).
      assert (Hsv : same_view R (contents t) (contents u) → a = b).
      { apply same_view_nrows; by rewrite contents_names. }
      destruct (Z.eqb_spec (Z.of_nat a) (Z.of_nat b)) as [Hab|Hab]; simpl.
      2:{ split; [done|]. intros [[]|?%Hsv]; lia. }
      destruct (Z.eqb_spec (Z.of_nat b) 0) as [Hb|Hb].
      { split; [|done]. intros _. left. lia. }
      match goal with |- context [negb ?e] => destruct e eqn:Hk end; cbn [negb].
      - apply andb_true_iff in Hk as [Hk1 Hk2]. rewrite forallb_in in Hk1, Hk2.
        rewrite forallb_forall. split.
        + intros Hf. right. split.
          { intros n. rewrite !contents_names. naive_solver. }
          intros n l k Hl Hk.
          apply elem_of_list_fmap in Hl as ([n' c] & [= -> ->] & Hc).
          apply elem_of_list_fmap in Hk as ([n'' d] & [= -> ->] & Hd).
          specialize (Hf (n'', c)). rewrite <- elem_of_list_In in Hf. specialize (Hf Hc). simpl in Hf.
          rewrite (proj2 (dget_Some u n'' d Hu) Hd) in Hf.
          by apply (col_eq_col_spec eqb neb same_page) in Hf.
        + intros [[]|[Hn Hc]]; [lia|]. intros [n c] Hin%elem_of_list_In. simpl.
          destruct (dget_in u n) as [d Hd].
          { apply Hk1. by apply (elem_of_list_fmap_1 fst) in Hin. }
          rewrite Hd. apply (col_eq_col_spec eqb neb same_page); [done..|].
          apply (Hc n).
          * apply elem_of_list_fmap. by exists (n, c).
          * apply elem_of_list_fmap. exists (n, d). split; [done|]. by apply dget_Some.
      - split; [done|]. intros [[]|[Hn _]]; [lia|]. apply not_true_iff_false in Hk. destruct Hk.
        apply andb_true_iff. rewrite !forallb_in. setoid_rewrite contents_names in Hn. naive_solver.
    Qed.

    Lemma list_eqb_spec l k : list_eqb eqb l k = true ↔ Forall2 R l k.
    Proof.
      unfold list_eqb. rewrite andb_true_iff, Nat.eqb_eq. split.
      - intros [Hl Hf]. by apply (forallb_zip eqb) in Hf.
      - intros Hf. pose proof (Forall2_length _ _ _ Hf). split; [done|]. by apply (forallb_zip eqb).
    Qed.

    Lemma tbl_eq_dict_spec t (d : list (N * list A)) :
      NoDup t.*1 → NoDup d.*1 →
      tbl_eq_dict eqb t d = true ↔ same_view R (contents t) d.
    Proof.
      intros Ht Hd. unfold tbl_eq_dict. rewrite andb_true_iff, Nat.eqb_eq, forallb_forall. split.
      - intros [Hlen Hf].
        assert (Hsub : t.*1 ⊆ d.*1).
        { intros n ([n' c] & -> & Hin)%elem_of_list_fmap. specialize (Hf (n', c)).
          rewrite <- elem_of_list_In in Hf. specialize (Hf Hin). simpl in *.
          destruct (dget d n') eqn:E; [|done]. by eapply dget_elem. }
        assert (Hsup : d.*1 ⊆ t.*1).
        { assert (t.*1 ≡ₚ d.*1) as Hp.
          { apply submseteq_Permutation_length_le; [rewrite !fmap_length; lia|by apply NoDup_submseteq]. }
          intros n. by rewrite Hp. }
        split.
        + intros n. rewrite contents_names. split; [apply Hsub|apply Hsup].
        + intros n l k Hl Hk. apply elem_of_list_fmap in Hl as ([n' c] & [= -> ->] & Hc).
          specialize (Hf (n', c)). rewrite <- elem_of_list_In in Hf. specialize (Hf Hc). simpl in Hf.
          rewrite (proj2 (dget_Some d n' k Hd) Hk) in Hf. by apply list_eqb_spec.
      - intros [Hn Hc]. split.
        + rewrite <- (fmap_length fst t), <- (fmap_length fst d). apply Permutation_length, NoDup_Permutation; [done..|].
          intros n. rewrite <- contents_names. apply Hn.
        + intros [n c] Hin%elem_of_list_In. simpl. destruct (dget_in d n) as [k Hk].
          { apply Hn. rewrite contents_names. by apply (elem_of_list_fmap_1 fst) in Hin. }
          rewrite Hk. apply list_eqb_spec. apply (Hc n).
          * apply elem_of_list_fmap. by exists (n, c).
          * by apply dget_Some.
    Qed.
  End eq.
End proofs.
