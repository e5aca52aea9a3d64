(** groupby: rows, groups, the result table. *)
From stdpp Require Import strings.
From Verif.Spec Require Import Groupby.
From Verif.Spec Require Export GroupTerms.
From Verif.Model Require Import Groupby.
From Verif.Proof Require Import SliceLemmas ColumnRead DictLemmas TableBase FilterProofs JoinBase RepaginateProofs.
Local Open Scope Z_scope.

Lemma run_state_snoc acc l v : run_state acc (l ++ [v]) = res_bind (run_state acc l) (λ f, update f v).
Proof. unfold run_state. by rewrite fold_left_app. Qed.

Lemma run_state_prefix acc l k f : run_state acc (l ++ k) = Ok f → ∃ g, run_state acc l = Ok g.
Proof.
  revert f. induction k as [|v k IH] using rev_ind; intros f.
  - rewrite app_nil_r. eauto.
  - rewrite app_assoc, run_state_snoc. destruct (run_state acc (l ++ k)) as [g|e]; cbn; [|done].
    intros _. by apply (IH g).
Qed.

(** ** grouping an abstract list of rows *)
Section grouping.
  Context {R : Type} (keys : list string) (functions : list (string * accumulator)) (cns : list string).
  Context (rowof : R → list pyval) (keyf : R → list pyval) (valf : string → R → pyval).
  Context (Hkey : ∀ i, mapM (find_col cns (rowof i)) keys = Some (keyf i)).
  Context (Hval : ∀ f i, f ∈ functions → find_col cns (rowof i) f.1 = Some (valf f.1 i)).

  Definition mem (is : list R) (k : list pyval) (cn : string) : list pyval :=
    map (valf cn) (filter (λ i, keyf i = k) is).
  Definition fits (is : list R) (k : list pyval) (fs : agg_funs) : Prop :=
    Forall2 (λ f g, g.1 = f.1 ∧ run_state f.2 (mem is k f.1) = Ok g.2) functions fs.
  Definition matches (is : list R) (agg : list (list pyval * agg_funs)) : Prop :=
    agg.*1 = distinct (map keyf is) ∧ ∀ k fs, (k, fs) ∈ agg → fits is k fs.

  Lemma mem_snoc is i k cn : mem (is ++ [i]) k cn = mem is k cn ++ (if decide (keyf i = k) then [valf cn i] else []).
  Proof using Type.
    unfold mem. rewrite list.filter_app, map_app. f_equal. rewrite filter_cons, filter_nil. by case_decide.
  Qed.

  Lemma update_all_ok is i k fs fs' :
    k = keyf i → fits is k fs → update_all (find_col cns (rowof i)) fs = Ok fs' → fits (is ++ [i]) k fs'.
  Proof using Hval.
    intros Hk. unfold fits. intros HF. revert fs'. clear Hkey.
    assert (HV : ∀ f, f ∈ functions → find_col cns (rowof i) f.1 = Some (valf f.1 i)) by auto. clear Hval.
    induction HF as [|f [cn g] functions' fs [Hcn Hg] HF IH]; intros fs'; cbn [update_all].
    - intros [= <-]. constructor.
    - cbn [fst snd] in Hcn, Hg. subst cn. rewrite HV by left.
      destruct (update g (valf f.1 i)) as [g'|e] eqn:Hu; cbn; [|done].
      destruct (update_all _ fs) as [fs2|e] eqn:Hfs; cbn; [|done]. intros [= <-].
      constructor.
      + split; [done|]. cbn [fst snd]. rewrite mem_snoc, decide_True by done. rewrite run_state_snoc, Hg. done.
      + apply IH; [|done]. intros f' Hf'. apply HV. by right.
  Qed.
  Lemma update_all_runs is i k fs :
    k = keyf i → fits is k fs → (∀ f, f ∈ functions → ∃ s, run_state f.2 (mem (is ++ [i]) k f.1) = Ok s) →
    ∃ fs', update_all (find_col cns (rowof i)) fs = Ok fs'.
  Proof using Hval.
    intros Hk. unfold fits. intros HF. clear Hkey.
    assert (HV : ∀ f, f ∈ functions → find_col cns (rowof i) f.1 = Some (valf f.1 i)) by auto. clear Hval.
    induction HF as [|f [cn g] functions' fs [Hcn Hg] HF IH]; intros Hok; cbn [update_all]; [by eexists|].
    cbn [fst snd] in Hcn, Hg. subst cn. rewrite HV by left.
    destruct (Hok f) as [s Hs]; [by left|]. rewrite mem_snoc, decide_True in Hs by done.
    rewrite run_state_snoc, Hg in Hs. cbn in Hs. rewrite Hs. cbn.
    destruct IH as [fs' ->]; [intros f' Hf'; apply HV; by right|intros f' Hf'; apply Hok; by right|].
    by eexists.
  Qed.

  Definition agg_get (agg : list (list pyval * agg_funs)) k : agg_funs :=
    match dget agg k with Some fs => fs | None => map (λ f, (f.1, new_fun f.2)) functions end.

  Lemma agg_get_fits is agg k : matches is agg → fits is k (agg_get agg k).
  Proof using Type.
    intros [Hk Hf]. unfold agg_get. destruct (dget agg k) as [fs|] eqn:Hd.
    - apply Hf. by apply dget_Some_elem.
    - apply dget_None in Hd. rewrite Hk, elem_of_distinct in Hd.
      assert (Hm : ∀ cn, mem is k cn = []).
      { intros cn. unfold mem. replace (filter _ is) with (@nil R); [done|]. symmetry.
        destruct (filter (λ i, keyf i = k) is) as [|j js] eqn:E; [done|]. exfalso. apply Hd.
        assert (j ∈ filter (λ i, keyf i = k) is) as [Hj Hin]%elem_of_list_filter by (rewrite E; left).
        apply elem_of_list_fmap. by exists j. }
      unfold fits. clear Hval. induction functions as [|f fs IH]; [constructor|].
      cbn [map]. constructor; [|done]. by rewrite Hm.
  Qed.

  Lemma group_row_unfold agg i :
    group_row keys functions cns agg (rowof i) =
    res_map (dset agg (keyf i)) (update_all (find_col cns (rowof i)) (agg_get agg (keyf i))).
  Proof using Hkey. unfold group_row. cbv zeta. rewrite (Hkey i). done. Qed.

  Lemma group_row_match is agg i agg' :
    matches is agg → group_row keys functions cns agg (rowof i) = Ok agg' → matches (is ++ [i]) agg'.
  Proof using Hkey Hval.
    intros HM. rewrite group_row_unfold.
    destruct (update_all _ _) as [fs'|e] eqn:Hu; cbn; [|done]. intros [= <-].
    pose proof (update_all_ok is i _ _ _ eq_refl (agg_get_fits is agg (keyf i) HM) Hu) as Hnew.
    destruct HM as [Hk Hf]. split.
    - rewrite map_app. cbn [map]. rewrite distinct_snoc, <- Hk. rewrite dset_keys.
      destruct (decide (keyf i ∈ agg.*1)); done.
    - intros k fs Hin.
      assert (Hnd : NoDup agg.*1) by (rewrite Hk; apply NoDup_distinct).
      assert (Hnd' : NoDup (dset agg (keyf i) fs').*1) by (by apply dset_NoDup).
      apply (dget_Some _ _ _ Hnd') in Hin. rewrite dget_dset in Hin.
      destruct (decide (k = keyf i)) as [->|Hne].
      + destruct (decide (keyf i = keyf i)); [|done]. injection Hin as <-. done.
      + destruct (decide (keyf i = k)); [by subst|].
        assert (Hfits : fits is k fs).
        { apply Hf. destruct (decide (k = keyf i)); [done|]. by apply dget_Some_elem. }
        unfold fits in *. eapply Forall2_impl; [exact Hfits|]. intros f g [? Hg]. split; [done|].
        rewrite mem_snoc, decide_False by done. by rewrite app_nil_r.
  Qed.

  Lemma group_row_runs is agg i :
    matches is agg → (∀ f, f ∈ functions → ∃ s, run_state f.2 (mem (is ++ [i]) (keyf i) f.1) = Ok s) →
    ∃ agg', group_row keys functions cns agg (rowof i) = Ok agg'.
  Proof using Hkey Hval.
    intros HM Hok. rewrite group_row_unfold.
    destruct (update_all_runs is i _ _ eq_refl (agg_get_fits is agg (keyf i) HM) Hok) as [fs' ->]. by eexists.
  Qed.

  Lemma group_rows_app agg a b :
    group_rows keys functions cns agg (a ++ b) =
    res_bind (group_rows keys functions cns agg a) (λ agg, group_rows keys functions cns agg b).
  Proof using Type.
    revert agg. induction a as [|r a IH]; intros agg; [done|]. cbn [app group_rows].
    destruct (group_row _ _ _ agg r) as [agg'|e]; cbn; [apply IH|done].
  Qed.

  Definition runs (is : list R) : Prop :=
    ∀ k f, k ∈ distinct (map keyf is) → f ∈ functions → ∃ s, run_state f.2 (mem is k f.1) = Ok s.

  Lemma runs_prefix is i : runs (is ++ [i]) → runs is.
  Proof using Type.
    intros H k f Hk Hf. destruct (H k f) as [s Hs]; [|done|].
    - rewrite elem_of_distinct in *. rewrite map_app. apply elem_of_app. by left.
    - rewrite mem_snoc in Hs. by eapply run_state_prefix.
  Qed.

  Lemma group_rows_match is agg :
    group_rows keys functions cns [] (map rowof is) = Ok agg → matches is agg.
  Proof using Hkey Hval.
    revert agg. induction is as [|i is IH] using rev_ind; intros agg.
    - intros [= <-]. split; [done|]. by intros k fs Hin%elem_of_nil.
    - rewrite map_app, group_rows_app. destruct (group_rows _ _ _ [] (map rowof is)) as [agg0|e]; [|done].
      cbn [res_bind map group_rows]. destruct (group_row _ _ _ agg0 (rowof i)) as [agg1|e] eqn:Hr; [|done].
      cbn. intros [= <-]. eapply group_row_match; [|exact Hr]. by apply IH.
  Qed.
  Lemma group_rows_runs is :
    runs is → ∃ agg, group_rows keys functions cns [] (map rowof is) = Ok agg.
  Proof using Hkey Hval.
    induction is as [|i is IH] using rev_ind; intros Hr; [by eexists|].
    destruct (IH (runs_prefix _ _ Hr)) as [agg Hagg]. rewrite map_app, group_rows_app, Hagg. cbn [res_bind map group_rows].
    destruct (group_row_runs is agg i) as [agg' ->]; [by apply group_rows_match| |by eexists].
    intros f Hf. apply Hr; [|done]. rewrite elem_of_distinct, map_app. apply elem_of_app. right. by left.
  Qed.
  Lemma group_rows_err is agg : group_rows keys functions cns [] (map rowof is) = Ok agg → runs is.
  Proof using Hkey Hval.
    intros [Hk Hf]%group_rows_match k f Hin Hfin. rewrite <- Hk in Hin.
    apply elem_of_list_fmap in Hin as [[k' fs] [-> Hin]]. specialize (Hf _ _ Hin). cbn [fst].
    unfold fits in Hf. apply elem_of_list_lookup in Hfin as [j Hj].
    destruct (Forall2_lookup_l _ _ _ _ _ Hf Hj) as (g & _ & _ & Hg). by eexists.
  Qed.

  (** ** the result rows *)
  Context (sqrt : Qc → Qc).
  Definition result_row (is : list R) (k row : list pyval) : Prop :=
    ∃ vs, row = k ++ vs ∧ Forall2 (λ f x, run_acc sqrt f.2 (mem is k f.1) = Ok x) functions vs.

  Lemma values_of_spec is k fs vs :
    fits is k fs → values_of sqrt fs = Ok vs → Forall2 (λ f x, run_acc sqrt f.2 (mem is k f.1) = Ok x) functions vs.
  Proof using Type.
    unfold fits. intros HF. revert vs. clear Hval. induction HF as [|f [cn g] functions' fs [Hcn Hg] HF IH]; intros vs; cbn [values_of].
    - intros [= <-]. constructor.
    - destruct (value_of sqrt g) as [v|e] eqn:Hv; cbn; [|done].
      destruct (values_of sqrt fs) as [vs'|e]; cbn; [|done]. intros [= <-]. constructor; [|by apply IH].
      unfold run_acc. rewrite Hg. done.
  Qed.
  Lemma values_of_runs is k fs :
    fits is k fs → (∀ f, f ∈ functions → ∃ x, run_acc sqrt f.2 (mem is k f.1) = Ok x) → ∃ vs, values_of sqrt fs = Ok vs.
  Proof using Type.
    unfold fits. intros HF. clear Hval. induction HF as [|f [cn g] functions' fs [Hcn Hg] HF IH]; intros Hok; cbn [values_of]; [by eexists|].
    destruct (Hok f) as [x Hx]; [by left|]. unfold run_acc in Hx. rewrite Hg in Hx. cbn in Hx. rewrite Hx. cbn.
    destruct IH as [vs ->]; [intros; apply Hok; by right|]. by eexists.
  Qed.
  Lemma result_rows_spec is agg rs :
    (∀ k fs, (k, fs) ∈ agg → fits is k fs) → result_rows sqrt agg = Ok rs → Forall2 (result_row is) agg.*1 rs.
  Proof using Type.
    revert rs. induction agg as [|[k fs] agg IH]; intros rs Hf; cbn [result_rows].
    - intros [= <-]. constructor.
    - destruct (values_of sqrt fs) as [vs|e] eqn:Hv; cbn; [|done].
      destruct (result_rows sqrt agg) as [rs'|e] eqn:Hr; cbn; [|done]. intros [= <-].
      constructor; [|apply IH; [|done]; intros; apply Hf; by right].
      exists vs. split; [done|]. eapply values_of_spec; [|exact Hv]. apply Hf. by left.
  Qed.
  Lemma result_rows_runs is agg :
    (∀ k fs, (k, fs) ∈ agg → fits is k fs) →
    (∀ k f, k ∈ agg.*1 → f ∈ functions → ∃ x, run_acc sqrt f.2 (mem is k f.1) = Ok x) →
    ∃ rs, result_rows sqrt agg = Ok rs.
  Proof using Type.
    induction agg as [|[k fs] agg IH]; intros Hf Hok; cbn [result_rows]; [by eexists|].
    destruct (values_of_runs is k fs) as [vs ->]; [apply Hf; by left|intros; apply Hok; [by left|done]|].
    cbn. destruct IH as [rs ->]; [intros; apply Hf; by right|intros; apply Hok; [by right|done]|]. by eexists.
  Qed.

  Definition all_ok (is : list R) : Prop :=
    ∀ k f, k ∈ distinct (map keyf is) → f ∈ functions → ∃ x, run_acc sqrt f.2 (mem is k f.1) = Ok x.

  Lemma all_ok_runs is : all_ok is → runs is.
  Proof using Type.
    intros H k f Hk Hf. destruct (H k f Hk Hf) as [x Hx]. unfold run_acc in Hx.
    destruct (run_state _ _) as [s|]; [by eexists|done].
  Qed.

  Theorem grouped is rs :
    res_bind (group_rows keys functions cns [] (map rowof is)) (result_rows sqrt) = Ok rs →
    Forall2 (result_row is) (distinct (map keyf is)) rs.
  Proof using Hkey Hval.
    destruct (group_rows _ _ _ [] _) as [agg|e] eqn:Hg; cbn; [|done]. intros Hr.
    apply group_rows_match in Hg as [Hk Hf]. rewrite <- Hk. by apply result_rows_spec.
  Qed.
  Theorem grouped_ok is :
    all_ok is ↔ ∃ rs, res_bind (group_rows keys functions cns [] (map rowof is)) (result_rows sqrt) = Ok rs.
  Proof using Hkey Hval.
    split.
    - intros Hok. destruct (group_rows_runs is (all_ok_runs _ Hok)) as [agg Hagg]. rewrite Hagg. cbn.
      apply group_rows_match in Hagg as [Hk Hf]. apply (result_rows_runs is); [done|]. intros k f. rewrite Hk. apply Hok.
    - intros [rs Hrs]. apply grouped in Hrs. intros k f Hk Hf.
      apply elem_of_list_lookup in Hk as [j Hj]. destruct (Forall2_lookup_l _ _ _ _ _ Hrs Hj) as (row & _ & vs & _ & HF).
      apply elem_of_list_lookup in Hf as [m Hm]. destruct (Forall2_lookup_l _ _ _ _ _ HF Hm) as (x & _ & Hx). eauto.
  Qed.
End grouping.
