(** Tables: selecting by names only, repeating, concatenating; witnesses. *)
From Verif.Spec Require Import Counts Rows PyHash.
From Verif.Model Require Import Table.
From Verif.Proof Require Import DictLemmas SliceLemmas ColumnRead ColumnMisc ColumnStatsProofs ColumnFinal
  TableBase TableProofs TableRows TableSelect.
From Coq Require Import ZifyBool.
Local Open Scope Z_scope.

Section proofs.
  Context {N A T : Type} `{EqDecision N, EqDecision T} (ty : A → T) (ps : Z).
  Implicit Types (t u : table N A T).

  Lemma omap_only (ns : list N) :
    omap (λ k : key N, match k with KName n => Some n | _ => None end) (map KName ns) = ns.
  Proof. induction ns as [|n ns IH]; simpl; [done|]. by f_equal. Qed.
  Lemma omap_only_s (ns : list N) :
    omap (λ k : key N, match k with KSlice s => Some s | _ => None end) (map KName ns) = [].
  Proof. induction ns as [|n ns IH]; simpl; done. Qed.
  Lemma omap_only_i (ns : list N) :
    omap (λ k : key N, match k with KInt i => Some i | _ => None end) (map KName ns) = [].
  Proof. induction ns as [|n ns IH]; simpl; done. Qed.

  Lemma select_fold t acc (ns : list N) :
    (∀ n, n ∈ ns → n ∈ t.*1) → NoDup (acc.*1 ++ ns) →
    contents (fold_left (λ acc n, match dget t n with Some c => dset acc n c | None => acc end) ns acc)
    = contents acc ++ map (λ n, (n, default [] (dget (contents t) n))) ns.
  Proof.
    revert acc. induction ns as [|n ns IH]; intros acc Hin Hnd; simpl; [by rewrite app_nil_r|].
    destruct (dget_in t n) as [c Hc]; [apply Hin; by left|]. rewrite Hc.
    assert (n ∉ acc.*1) as Hn.
    { intros Hn. apply list.NoDup_app in Hnd as (_ & Hd & _). apply (Hd n Hn). by left. }
    rewrite dset_fresh by done. rewrite IH.
    - rewrite contents_app, <- app_assoc. f_equal. simpl. by rewrite contents_dget, Hc.
    - intros m Hm. apply Hin. by right.
    - rewrite fmap_app, <- app_assoc. done.
  Qed.

  Lemma select_names t (ns : list N) :
    NoDup ns → (2 <= length ns)%nat → (∀ n, n ∈ ns → n ∈ t.*1) →
    ∃ t', tbl_getitem ty ps t (map KName ns) = Ok (SelTable t') ∧
      contents t' = map (λ n, (n, default [] (dget (contents t) n))) ns.
  Proof.
    intros Hns Hlen Hin.
    eexists. split; [|by apply (select_fold t [] ns)].
    unfold tbl_getitem.
    pose proof (omap_only ns) as E1. pose proof (omap_only_s ns) as E2. pose proof (omap_only_i ns) as E3.
    destruct ns as [|n [|n2 ns]]; simpl in Hlen; [lia..|].
    simpl map in *. cbv beta iota zeta. rewrite E1, E2, E3. cbv iota.
    rewrite (proj2 (forallb_in _ _)) by done. done.
  Qed.

  Lemma imul_cols_spec t n :
    0 < n → res_map contents (imul_cols t n)
    = Ok (map (λ c, (c.1, concat (replicate (Z.to_nat n) c.2))) (contents t)).
  Proof.
    intros Hn. induction t as [|[k c] t IH]; [done|]. cbn [imul_cols].
    pose proof (col_imul_spec c n Hn) as Hc. destruct (col_imul c n) as [c'|]; [|done].
    cbn [res_map] in Hc. injection Hc as Hc. cbn [res_bind].
    destruct (imul_cols t n) as [t'|]; [|done]. cbn [res_map] in *. injection IH as IH.
    simpl. rewrite Hc, IH. done.
  Qed.

  Lemma tbl_imul_spec t n :
    0 < n → res_map contents (tbl_imul t n)
    = Ok (map (λ c, (c.1, concat (replicate (Z.to_nat n) c.2))) (contents t)).
  Proof.
    intros Hn. unfold tbl_imul. assert ((0 <? n) = true) as -> by lia. by apply imul_cols_spec.
  Qed.

  Lemma tbl_iadd_spec t u :
    NoDup t.*1 → NoDup u.*1 → (∀ n, n ∈ t.*1 ↔ n ∈ u.*1) →
    res_map contents (tbl_iadd t u)
    = Ok (map (λ c, (c.1, c.2 ++ default [] (dget (contents u) c.1))) (contents t)).
  Proof.
    intros Ht Hu Hn. unfold tbl_iadd.
    rewrite !(proj2 (forallb_in _ _)) by naive_solver. cbn [negb res_map]. f_equal.
    unfold contents at 1 3. rewrite !map_map. apply map_ext. intros [k c]. simpl.
    rewrite contents_dget, col_iter_app. do 2 f_equal. by destruct (dget u k).
  Qed.

  Lemma tbl_iadd_rejects t u n :
    (n ∈ t.*1 ∧ n ∉ u.*1) ∨ (n ∈ u.*1 ∧ n ∉ t.*1) → tbl_iadd t u = Err ValueError.
  Proof.
    intros Hn. unfold tbl_iadd.
    destruct (forallb (λ n, bool_decide (n ∈ u.*1)) t.*1) eqn:E1; [|done].
    destruct (forallb (λ n, bool_decide (n ∈ t.*1)) u.*1) eqn:E2; [|done].
    rewrite forallb_in in E1, E2. naive_solver.
  Qed.
End proofs.

(** ** witnesses *)
From stdpp Require Import strings.
Local Open Scope string_scope.

Ltac by_decide := match goal with |- ?P => apply (bool_decide_eq_true_1 P); by vm_compute end.

Definition ztable (cols : list (string * list Z)) : table string Z unit :=
  tbl_of_columns one_ty 2 cols.

Lemma init_no_rows_wrong :
  ∃ (h : list string) (r : list (list Z)), NoDup h ∧ Forall (λ x, length x = length h) r ∧
    names (contents (tbl_init one_ty 2 h r)) ≠ h.
Proof.
  exists ["a"; "b"], []. split_and!; [|constructor|by vm_compute].
  by_decide.
Qed.

Lemma eq_empty_wrong :
  ∃ t u : table string Z unit,
    tbl_eq Z.eqb (λ x y, negb (Z.eqb x y)) (λ _ _, false) false t u = true ∧
    names (contents t) ≠ names (contents u) ∧ ¬ same_view eq (contents t) (contents u).
Proof.
  exists (ztable [("a", [])]), (ztable [("b", [])]). split_and!; [by vm_compute..|].
  intros [Hn _]. specialize (Hn "a"). vm_compute in Hn.
  destruct Hn as [Hn _]. assert ("a" ∈ ["b"]) as Hin by (apply Hn; left).
  by apply elem_of_list_singleton in Hin.
Qed.

(** keyword rows: a missing column is accepted, an unknown one raises after
    earlier columns were extended *)
Lemma add_rows_kw_wrong :
  (∃ (t : table string Z unit) kw t', zlen kw ≠ zlen t ∧ add_rows_kw one_ty 2 t kw = (Ok t', t') ∧
     rect 1 (contents t) ∧ ¬ ∃ n, rect n (contents t')) ∧
  (∃ (t : table string Z unit) kw e t', add_rows_kw one_ty 2 t kw = (Err e, t') ∧ contents t' ≠ contents t).
Proof.
  split.
  - exists (ztable [("a", [1%Z]); ("b", [2%Z])]), [("a", 3%Z)]. eexists. split_and!; [done|by vm_compute| |].
    + repeat constructor.
    + intros [n Hn]. vm_compute in Hn.
      apply list.Forall_cons in Hn as [H1 [H2 _]%list.Forall_cons]. cbn in H1, H2. congruence.
  - exists (ztable [("a", [1%Z])]), [("a", 3%Z); ("x", 4%Z)]. do 2 eexists. split; [by vm_compute|by vm_compute].
Qed.

Lemma select_twice_wrong :
  ∃ (t : table string Z unit) t', tbl_getitem one_ty 2 t [KName "a"; KName "a"] = Ok (SelTable t') ∧
    names (contents t') = ["a"].
Proof. exists (ztable [("a", [1%Z]); ("b", [2%Z])]). eexists. split; by vm_compute. Qed.

Lemma select_last_row_wrong :
  ∃ t : table string Z unit, (0 < tbl_len t)%Z ∧ tbl_getitem one_ty 2 t [KInt (-1)] = Err IndexError.
Proof. exists (ztable [("a", [1%Z; 2%Z])]). split; by vm_compute. Qed.

(** [hash((-1,)) == hash((-2,))] *)
Lemma unique_collision_wrong :
  ∃ t : table string Z unit, NoDup t.*1 ∧ rect 2 (contents t) ∧
    unique_index (λ z, z) ints_hash t ["a"] = Ok [0%Z] ∧
    ¬ first_occurrences (row_keys 0%Z (λ z, z) (contents t) ["a"] 2) [0%Z].
Proof.
  exists (ztable [("a", [(-1)%Z; (-2)%Z])]). split_and!.
  - by_decide.
  - repeat constructor.
  - by vm_compute.
  - intros [_ Hi]. specialize (Hi 1%Z). destruct Hi as [_ Hi].
    assert (1%Z ∈ [0%Z]) as Hin; [|by apply elem_of_list_singleton in Hin].
    apply Hi. split; [done|]. exists [(-2)%Z]. split; [by vm_compute|].
    vm_compute. intros Hin. apply elem_of_list_singleton in Hin. done.
Qed.
