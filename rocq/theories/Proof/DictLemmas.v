(** Lemmas on Python dictionaries as association lists. *)
From Verif.Spec Require Import Counts.
From Verif.Spec Require Export ColumnTerms.
From Verif.Model Require Import Dict.
Local Open Scope Z_scope.

Section dict.
  Context {K V : Type} `{EqDecision K}.
  Implicit Types (d : list (K * V)).

  Lemma dget_dset d k v k' :
    dget (dset d k v) k' = if decide (k' = k) then Some v else dget d k'.
  Proof.
    induction d as [|[k0 v0] d IH]; simpl.
    - repeat case_decide; congruence.
    - destruct (decide (k = k0)); simpl; repeat case_decide; try congruence.
  Qed.

  Lemma dset_keys d k v :
    (dset d k v).*1 = if decide (k ∈ d.*1) then d.*1 else d.*1 ++ [k].
  Proof.
    induction d as [|[k0 v0] d IH].
    - done.
    - cbn [dset]. destruct (decide (k = k0)) as [->|Hne]; rewrite !fmap_cons; cbn [fst].
      + rewrite decide_True by (by left). done.
      + rewrite IH. destruct (decide (k ∈ d.*1)).
        * rewrite decide_True by (by right). done.
        * rewrite decide_False by (rewrite elem_of_cons; naive_solver). done.
  Qed.

  Lemma dset_NoDup d k v : NoDup d.*1 → NoDup (dset d k v).*1.
  Proof.
    intros Hd. rewrite dset_keys. case_decide; [done|].
    apply list.NoDup_app. split; [done|]. split; [|apply NoDup_singleton].
    intros x Hx ->%elem_of_list_singleton. done.
  Qed.

  Lemma dget_Some d k v : NoDup d.*1 → dget d k = Some v ↔ (k, v) ∈ d.
  Proof.
    induction d as [|[k0 v0] d IH]; simpl; intros Hnd.
    - rewrite elem_of_nil. naive_solver.
    - apply list.NoDup_cons in Hnd as [Hk0 Hnd]. rewrite elem_of_cons. case_decide; subst.
      + split; [naive_solver|]. intros [[= ->]|Hin]; [done|].
        destruct Hk0. by apply (elem_of_list_fmap_1 fst) in Hin.
      + rewrite IH by done. naive_solver.
  Qed.

  Lemma dget_None d k : dget d k = None ↔ k ∉ d.*1.
  Proof.
    induction d as [|[k0 v0] d IH]; simpl.
    - split; [intros; apply not_elem_of_nil|done].
    - rewrite not_elem_of_cons. case_decide; naive_solver.
  Qed.

  Lemma filter_keys_NoDup (P : K * V → Prop) `{∀ x, Decision (P x)} d :
    NoDup d.*1 → NoDup (filter P d).*1.
  Proof.
    induction d as [|[k v] d IH]; simpl; intros Hnd; [constructor|].
    apply list.NoDup_cons in Hnd as [Hk Hnd]. rewrite filter_cons. case_decide; simpl; [|by apply IH].
    apply list.NoDup_cons. split; [|by apply IH].
    intros ([k' v'] & -> & [_ Hin]%elem_of_list_filter)%elem_of_list_fmap.
    apply Hk. by apply (elem_of_list_fmap_1 fst) in Hin.
  Qed.

  Lemma ddel_NoDup d k : NoDup d.*1 → NoDup (ddel d k).*1.
  Proof. apply filter_keys_NoDup. Qed.

  Lemma dget_ddel d k k' :
    dget (ddel d k) k' = if decide (k' = k) then None else dget d k'.
  Proof.
    unfold ddel. induction d as [|[k0 v0] d IH]; simpl.
    - by case_decide.
    - rewrite filter_cons. simpl. destruct (decide (k0 ≠ k)) as [Hk|Hk]; simpl.
      + rewrite IH. repeat case_decide; congruence.
      + apply dec_stable in Hk as ->. rewrite IH. repeat case_decide; congruence.
  Qed.

  Lemma dget_filter (P : K * V → Prop) `{∀ x, Decision (P x)} d k :
    NoDup d.*1 →
    dget (filter P d) k =
      match dget d k with
      | Some v => if decide (P (k, v)) then Some v else None
      | None => None
      end.
  Proof.
    induction d as [|[k0 v0] d IH]; simpl; intros Hnd; [done|].
    apply list.NoDup_cons in Hnd as [Hk0 Hnd].
    rewrite filter_cons. destruct (decide (k = k0)) as [->|Hk].
    - destruct (decide (P (k0, v0))); simpl.
      + rewrite decide_True by done. done.
      + rewrite IH by done. by rewrite (proj2 (dget_None d k0)).
    - destruct (decide (P (k0, v0))); simpl; [rewrite decide_False by done|]; by apply IH.
  Qed.
End dict.

(** ** counters *)
Section counter.
  Context {K : Type} `{EqDecision K}.
  Implicit Types (d : list (K * Z)) (ks : list K) (k : K).

  Lemma cnt_nil (k : K) : cnt k [] = 0. Proof. done. Qed.
  Lemma cnt_cons k x ks : cnt k (x :: ks) = (if decide (x = k) then 1 else 0) + cnt k ks.
  Proof. unfold cnt, count_if. rewrite filter_cons. case_decide; simpl; lia. Qed.
  Lemma cnt_app k ks1 ks2 : cnt k (ks1 ++ ks2) = cnt k ks1 + cnt k ks2.
  Proof. unfold cnt, count_if. rewrite list.filter_app, app_length. lia. Qed.
  Lemma cnt_pos k ks : 0 <= cnt k ks.
  Proof. unfold cnt, count_if. lia. Qed.

  Lemma cnt_zero k ks : k ∉ ks → cnt k ks = 0.
  Proof.
    induction ks as [|x ks IH]; intros Hk; [done|]. apply not_elem_of_cons in Hk as [Hx Hk].
    rewrite cnt_cons, IH, decide_False by (done || congruence). done.
  Qed.
  Lemma cnt_elem k ks : k ∈ ks → 0 < cnt k ks.
  Proof.
    intros (l1 & l2 & ->)%elem_of_list_split. rewrite cnt_app, cnt_cons, decide_True by done.
    pose proof (cnt_pos k l1). pose proof (cnt_pos k l2). lia.
  Qed.

  Lemma cdict_counts d ks : cdict d ks → counts_exactly d ks.
  Proof.
    intros [Hnd Hd]. split; [by eapply NoDup_fmap_1|]. intros k n.
    rewrite <- dget_Some by done. rewrite Hd. unfold cnt. case_decide; naive_solver.
  Qed.

  Lemma counts_cdict d ks : counts_exactly d ks → cdict d ks.
  Proof.
    intros [Hnd Hd].
    assert (Hk : NoDup d.*1).
    { clear -Hnd Hd. assert (H2 : ∀ k n m, (k, n) ∈ d → (k, m) ∈ d → n = m).
      { intros k n m ?%Hd ?%Hd. lia. }
      clear Hd. induction Hnd as [|[k n] d Hin Hnd IH]; [constructor|]. simpl.
      apply list.NoDup_cons. split.
      - intros ([k' m] & ? & Hm)%elem_of_list_fmap. simpl in *. subst k'.
        rewrite (H2 k n m) in Hin; [done|by left|by right].
      - apply IH. intros k' n' m' ? ?. apply (H2 k'); by right. }
    split; [done|]. intros k. case_decide.
    - apply dget_Some; [done|]. apply Hd. done.
    - apply dget_None. intros ([k' n] & ? & [Hn ->]%Hd)%elem_of_list_fmap. simpl in *. by subst k'.
  Qed.

  Lemma cdict_nil : cdict (K:=K) [] [].
  Proof. split; [constructor|]. intros k. by rewrite decide_False by (rewrite cnt_nil; lia). Qed.

  Lemma cdict_get_or d ks k : cdict d ks → dget_or d k 0 = cnt k ks.
  Proof.
    intros [_ Hd]. unfold dget_or. rewrite Hd. pose proof (cnt_pos k ks).
    case_decide; simpl; lia.
  Qed.

  Lemma cdict_perm d ks ks' : (∀ k, cnt k ks = cnt k ks') → cdict d ks → cdict d ks'.
  Proof. intros Hc [Hnd Hd]. split; [done|]. intros k. rewrite Hd, Hc. done. Qed.

  Lemma cdict_dset d ks k : cdict d ks → cdict (dset d k (dget_or d k 0 + 1)) (ks ++ [k]).
  Proof.
    intros Hd. rewrite (cdict_get_or _ _ _ Hd). destruct Hd as [Hnd Hd].
    split; [by apply dset_NoDup|]. intros k'. rewrite dget_dset, Hd.
    rewrite cnt_app, cnt_cons, cnt_nil. pose proof (cnt_pos k ks). pose proof (cnt_pos k' ks).
    destruct (decide (k' = k)) as [->|]; repeat case_decide; try congruence; try lia; f_equal; lia.
  Qed.

  Lemma counter_fold {A} (ty : A → K) (xs : list A) d ks :
    cdict d ks →
    cdict (fold_left (λ d x, dset d (ty x) (dget_or d (ty x) 0 + 1)) xs d) (ks ++ map ty xs).
  Proof.
    revert d ks. induction xs as [|x xs IH]; intros d ks Hd; simpl.
    - by rewrite app_nil_r.
    - replace (ks ++ ty x :: map ty xs) with ((ks ++ [ty x]) ++ map ty xs) by (by rewrite <- app_assoc).
      apply IH. by apply cdict_dset.
  Qed.

  Lemma add_fold (other : list (K * Z)) d k :
    NoDup other.*1 →
    dget (fold_left (λ d kv, dset d kv.1 (dget_or d kv.1 0 + kv.2)) other d) k =
      match dget other k with
      | Some n => Some (dget_or d k 0 + n)
      | None => dget d k
      end.
  Proof.
    revert d. induction other as [|[k0 n0] other IH]; intros d Hnd; simpl; [done|].
    apply list.NoDup_cons in Hnd as [Hk0 Hnd]. rewrite IH by done.
    destruct (decide (k = k0)) as [->|Hk].
    - rewrite (proj2 (dget_None other k0)) by done. rewrite dget_dset, decide_True by done. done.
    - destruct (dget other k); [|by rewrite dget_dset, decide_False].
      unfold dget_or. rewrite dget_dset, decide_False by done. done.
  Qed.

  Lemma add_fold_NoDup (other : list (K * Z)) d :
    NoDup d.*1 → NoDup (fold_left (λ d kv, dset d kv.1 (dget_or d kv.1 0 + kv.2)) other d).*1.
  Proof.
    revert d. induction other as [|kv other IH]; intros d Hd; simpl; [done|].
    apply IH. by apply dset_NoDup.
  Qed.
End counter.
