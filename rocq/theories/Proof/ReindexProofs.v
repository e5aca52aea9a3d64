(** Proofs for Props/Reindex.v. *)
From stdpp Require Import strings.
From Verif.Model Require Import Reindex.
From Verif.Proof Require Import TableBase JoinFinal.
From Verif.Spec Require Import Join.
Local Open Scope Z_scope.

Lemma fold_max (l : list Z) x : x <= fold_left Z.max l x ∧ (∀ i, i ∈ l → i <= fold_left Z.max l x) ∧ fold_left Z.max l x ∈ x :: l.
Proof.
  revert x. induction l as [|y l IH]; intros x; cbn [fold_left].
  - split; [lia|]. split; [intros i H%elem_of_nil; done|by left].
  - destruct (IH (Z.max x y)) as (H1 & H2 & H3). split; [lia|]. split.
    + intros i [->|Hi]%elem_of_cons; [lia|by apply H2].
    + apply elem_of_cons in H3 as [->|H3]; [|by do 2 right].
      destruct (Z.max_spec x y) as [[_ ->]|[_ ->]]; [right; left|left].
Qed.
Lemma fold_min (l : list Z) x : fold_left Z.min l x <= x ∧ (∀ i, i ∈ l → fold_left Z.min l x <= i) ∧ fold_left Z.min l x ∈ x :: l.
Proof.
  revert x. induction l as [|y l IH]; intros x; cbn [fold_left].
  - split; [lia|]. split; [intros i H%elem_of_nil; done|by left].
  - destruct (IH (Z.min x y)) as (H1 & H2 & H3). split; [lia|]. split.
    + intros i [->|Hi]%elem_of_cons; [lia|by apply H2].
    + apply elem_of_cons in H3 as [->|H3]; [|by do 2 right].
      destruct (Z.min_spec x y) as [[_ ->]|[_ ->]]; [left|right; left].
Qed.
Lemma seq_max_spec l m : seq_max l = Some m → m ∈ l ∧ ∀ i, i ∈ l → i <= m.
Proof.
  destruct l as [|x l]; [done|]. intros [= <-]. destruct (fold_max l x) as (H1 & H2 & H3). split; [done|].
  intros i [->|Hi]%elem_of_cons; [done|by apply H2].
Qed.
Lemma seq_min_spec l m : seq_min l = Some m → m ∈ l ∧ ∀ i, i ∈ l → m <= i.
Proof.
  destruct l as [|x l]; [done|]. intros [= <-]. destruct (fold_min l x) as (H1 & H2 & H3). split; [done|].
  intros i [->|Hi]%elem_of_cons; [done|by apply H2].
Qed.
Lemma seq_some l : l ≠ [] → ∃ hi lo, seq_max l = Some hi ∧ seq_min l = Some lo.
Proof. destruct l; [done|]. intros _. by repeat eexists. Qed.

Lemma mp_chosen mode limit cpus fields :
  is_mp mode limit cpus fields = true ↔ mode = ModeForce ∨ (mode = ModeAuto ∧ limit <= fields ∧ 2 <= cpus).
Proof.
  unfold is_mp. destruct mode.
  - destruct (Z.ltb_spec fields limit); [split; [done|intros [|(?&?&?)]; [done|lia]]|].
    destruct (Z.ltb_spec (Z.max cpus 1) 2); split; try done.
    + intros [|(?&?&?)]; [done|lia].
    + intros _. right. split; [done|]. lia.
  - split; [done|]. intros [|(?&?)]; done.
  - split; [by left|done].
Qed.

Section reindex.
  Context {A T : Type} `{EqDecision T} (ty : A → T) (none : A) (ps : Z).
  Implicit Types t : table string A T.

  Lemma method_chosen mode limit cpus t index :
    index ≠ [] → Forall (λ i, - tbl_len t <= i < tbl_len t) index →
    checked_reindex ty none ps mode limit cpus t index = table_reindex ty none ps t index.
  Proof.
    intros (hi & lo & Hhi & Hlo)%seq_some Hf. unfold checked_reindex. rewrite Hhi, Hlo.
    apply seq_max_spec in Hhi as [Hi _]. apply seq_min_spec in Hlo as [Hl _].
    pose proof (proj1 (list.Forall_forall _ _) Hf _ Hi) as H1. pose proof (proj1 (list.Forall_forall _ _) Hf _ Hl) as H2.
    cbn beta in *. destruct (Z.leb_spec (tbl_len t) hi); [lia|]. destruct (Z.ltb_spec lo (- tbl_len t)); [lia|].
    unfold select_method. by destruct (is_mp _ _ _ _).
  Qed.

  Lemma out_of_range mode limit cpus t index :
    (∃ i, i ∈ index ∧ (i < - tbl_len t ∨ tbl_len t <= i)) →
    checked_reindex ty none ps mode limit cpus t index = Err IndexError.
  Proof.
    intros (i & Hi & Hr). assert (index ≠ []) as (hi & lo & Hhi & Hlo)%seq_some by (by intros ->; apply elem_of_nil in Hi).
    unfold checked_reindex. rewrite Hhi, Hlo.
    apply seq_max_spec in Hhi as [_ H1]. apply seq_min_spec in Hlo as [_ H2].
    specialize (H1 i Hi). specialize (H2 i Hi).
    destruct (Z.leb_spec (tbl_len t) hi); [done|]. destruct (Z.ltb_spec lo (- tbl_len t)); [done|lia].
  Qed.

  Lemma rows_in_range mode limit cpus t index :
    0 < ps → NoDup t.*1 → index ≠ [] → Forall (λ i, 0 <= i < Z.of_nat (nrows (contents t))) index →
    ∃ r, checked_reindex ty none ps mode limit cpus t index = Ok r ∧ names (contents r) = names (contents t) ∧
      rows none (contents r) = map (λ i, row none (contents t) (Z.to_nat i)) index.
  Proof.
    intros Hps Hnd Hne Hf. rewrite (method_chosen mode limit cpus t index).
    2: done.
    - destruct (reindex_rows ty none ps Hps t index) as (r & Hr & Hn & Hrows); [done| | | |].
      + intros ->. destruct index as [|i index]; [done|]. inversion_clear Hf as [|? ? Hi _]. cbn in Hi. lia.
      + eapply List.Forall_impl; [|exact Hf]. cbn. intros. lia.
      + right. intros Hi. pose proof (proj1 (list.Forall_forall _ _) Hf _ Hi) as H1. cbn in H1. lia.
      + exists r. split; [done|]. split; [done|]. rewrite Hrows. apply list_fmap_ext. intros _ i Hi%elem_of_list_lookup_2.
        pose proof (proj1 (list.Forall_forall _ _) Hf _ Hi) as H1. cbn in H1. by destruct (Z.eqb_spec i (-1)); [lia|].
    - rewrite tbl_len_spec. eapply List.Forall_impl; [|exact Hf]. cbn. intros. lia.
  Qed.

  Lemma range_checked mode limit cpus t index :
    (∃ i, i ∈ index ∧ (i < - Z.of_nat (nrows (contents t)) ∨ Z.of_nat (nrows (contents t)) <= i)) →
    checked_reindex ty none ps mode limit cpus t index = Err IndexError.
  Proof. rewrite <- tbl_len_spec. apply out_of_range. Qed.

  Lemma mode_free mode limit cpus mode' limit' cpus' t index :
    checked_reindex ty none ps mode limit cpus t index = checked_reindex ty none ps mode' limit' cpus' t index.
  Proof.
    unfold checked_reindex. destruct (seq_max index), (seq_min index); try done. repeat case_match; try done.
    unfold select_method. by destruct (is_mp mode limit cpus (tbl_len t * zlen t)), (is_mp mode' limit' cpus' (tbl_len t * zlen t)).
  Qed.
End reindex.
