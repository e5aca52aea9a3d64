(** [Column.index], [unique], [histogram], [count]. *)
From Verif.Spec Require Import Counts.
From Verif.Model Require Import ColumnStats.
From Verif.Proof Require Import DictLemmas SliceLemmas ColumnRead.
From Coq Require Import ZifyBool.
Local Open Scope Z_scope.

(** ** index dictionaries *)
Section index.
  Context {K : Type} `{EqDecision K}.

  Definition posn (k : K) (qs : list (Z * K)) : list Z := (filter (λ q, q.2 = k) qs).*1.
  Lemma posn_snoc k qs q : posn k (qs ++ [q]) = posn k qs ++ (if decide (q.2 = k) then [q.1] else []).
  Proof.
    unfold posn. rewrite list.filter_app, fmap_app, filter_cons, filter_nil. by case_decide.
  Qed.

  Definition idict (d : list (K * list Z)) (qs : list (Z * K)) : Prop :=
    NoDup d.*1 ∧ ∀ k, dget d k = if decide (posn k qs = []) then None else Some (posn k qs).

  Lemma idict_fold qs' d qs :
    idict d qs →
    idict (fold_left (λ d q, dset d q.2 (dget_or d q.2 [] ++ [q.1])) qs' d) (qs ++ qs').
  Proof.
    revert d qs. induction qs' as [|q qs' IH]; intros d qs Hd; simpl.
    { by rewrite app_nil_r. }
    replace (qs ++ q :: qs') with ((qs ++ [q]) ++ qs') by (by rewrite <- app_assoc).
    apply IH. destruct Hd as [Hnd Hd]. split; [by apply dset_NoDup|]. intros k.
    rewrite dget_dset, posn_snoc, Hd. unfold dget_or. rewrite Hd.
    destruct (decide (k = q.2)) as [->|Hk].
    - rewrite (decide_True (P := q.2 = q.2)) by done.
      destruct (decide (posn q.2 qs ++ [q.1] = [])) as [Hx|_]; [by apply app_eq_nil in Hx as [_ ?]|].
      case_decide as Hp; simpl; [by rewrite Hp|done].
    - rewrite (decide_False (P := q.2 = k)) by congruence. rewrite app_nil_r. done.
  Qed.

  Lemma idict_exact d (ks : list K) :
    idict d (zip (seqZ 0 (zlen ks)) ks) → indexes_exactly d ks.
  Proof.
    intros [Hnd Hd]. split; [by eapply NoDup_fmap_1|]. intros k ixs.
    rewrite <- dget_Some by done. rewrite Hd. unfold positions, posn.
    case_decide; naive_solver.
  Qed.
End index.

Section stats.
  Context {A T K : Type} `{EqDecision T, EqDecision K} (ty : A → T) (key : A → K).
  Implicit Types (c : column A T).

  Lemma col_index_spec c : indexes_exactly (col_index key c) (map key (col_iter c)).
  Proof.
    apply idict_exact. unfold col_index, enumerate. rewrite map_length.
    generalize (seqZ 0 (zlen (col_iter c))). intros is.
    assert (H : ∀ (l : list A) (js : list Z) (d : list (K * list Z)),
      fold_left (λ d p, dset d (key p.2) (dget_or d (key p.2) [] ++ [p.1])) (zip js l) d
      = fold_left (λ d q, dset d q.2 (dget_or d q.2 [] ++ [q.1])) (zip js (map key l)) d).
    { induction l as [|x l IH]; intros [|i js] d; simpl; try done. }
    rewrite H. apply (idict_fold _ [] []). split; [constructor|]. done.
  Qed.

  (** *** np.unique *)
  Definition udict (d : list (K * (A * Z))) (xs : list A) : Prop :=
    NoDup d.*1 ∧
    ∀ k, match dget d k with
         | None => cnt k (map key xs) = 0
         | Some (x, n) => x ∈ xs ∧ key x = k ∧ n = cnt k (map key xs)
         end.

  Lemma udict_fold xs' d xs :
    udict d xs →
    udict (fold_left (λ d x, dset d (key x) (match dget d (key x) with
                                             | None => (x, 1)
                                             | Some (y, n) => (y, n + 1)
                                             end)) xs' d) (xs ++ xs').
  Proof.
    revert d xs. induction xs' as [|x xs' IH]; intros d xs Hd; simpl.
    { by rewrite app_nil_r. }
    replace (xs ++ x :: xs') with ((xs ++ [x]) ++ xs') by (by rewrite <- app_assoc).
    apply IH. destruct Hd as [Hnd Hd]. split; [by apply dset_NoDup|]. intros k.
    rewrite dget_dset, map_app, cnt_app. simpl. rewrite cnt_cons, cnt_nil.
    destruct (decide (k = key x)) as [->|Hk].
    - specialize (Hd (key x)). rewrite decide_True by done.
      destruct (dget d (key x)) as [[y n]|].
      + destruct Hd as (? & ? & ->). split; [set_solver|]. split; [done|lia].
      + rewrite Hd. split; [set_solver|]. done.
    - rewrite decide_False by congruence. specialize (Hd k).
      destruct (dget d k) as [[y n]|].
      + destruct Hd as (? & ? & ->). split; [set_solver|]. split; [done|lia].
      + rewrite Hd. done.
  Qed.

  Definition tk (x : A) : T * K := (ty x, key x).

  Notation type_faithful := (type_faithful ty key).

  Lemma cnt_map_inj (xs : list A) x :
    (∀ y, y ∈ xs → key y = key x → ty y = ty x) →
    cnt (tk x) (map tk xs) = cnt (key x) (map key xs).
  Proof.
    intros Hf. induction xs as [|y xs IH]; simpl; [done|].
    rewrite !cnt_cons, IH by (intros; apply Hf; [by right|done]). f_equal.
    unfold tk. repeat case_decide; try done; try congruence.
    specialize (Hf y). rewrite Hf in * by (done || by left). congruence.
  Qed.

  Definition add_item (d : list ((T * K) * Z)) (i : A * Z) : list ((T * K) * Z) :=
    dset d (ty i.1, key i.1) (dget_or d (ty i.1, key i.1) 0 + i.2).

  Lemma cdict_add (d : list ((T * K) * Z)) ks q n ks' :
    cdict d ks → 0 < n → (∀ k, cnt k ks' = cnt k ks + if decide (k = q) then n else 0) →
    cdict (dset d q (dget_or d q 0 + n)) ks'.
  Proof.
    intros Hd Hn Hc. rewrite (cdict_get_or _ _ _ Hd). destruct Hd as [Hnd Hd].
    split; [by apply dset_NoDup|]. intros k. rewrite dget_dset, Hd, Hc.
    pose proof (cnt_pos k ks).
    destruct (decide (k = q)) as [->|]; repeat case_decide; try lia; f_equal; lia.
  Qed.

  Lemma cdict_ext (d : list ((T * K) * Z)) ks ks' :
    (∀ k, cnt k ks = cnt k ks') → cdict d ks → cdict d ks'.
  Proof. apply cdict_perm. Qed.

  Lemma uniq_items_fold (xs : list A) (u : list (K * (A * Z))) d ks :
    NoDup u.*1 →
    (∀ k x n, (k, (x, n)) ∈ u → key x = k ∧ 0 < n) →
    cdict d ks →
    ∀ ks', (∀ q : T * K, cnt q ks' = cnt q ks +
              match dget u q.2 with
              | Some (x, n) => if decide (ty x = q.1) then n else 0
              | None => 0
              end) →
    cdict (fold_left add_item (map (λ k : K * (A * Z), (k.2.1, k.2.2)) u) d) ks'.
  Proof.
    revert d ks. induction u as [|[k [x n]] u IH]; intros d ks Hnd Hu Hd ks' Hks'; simpl.
    - eapply cdict_ext; [|exact Hd]. intros q. rewrite Hks'. simpl. lia.
    - apply list.NoDup_cons in Hnd as [Hk Hnd]. destruct (Hu k x n) as [Hkx Hn]; [by left|].
      apply (IH _ (ks ++ replicate (Z.to_nat n) (ty x, key x))); [done| | |].
      + intros k' x' n' Hin. apply Hu. by right.
      + unfold add_item. simpl. apply (cdict_add _ ks _ n); [done|lia|].
        intros q. rewrite cnt_app. f_equal.
        assert (H : ∀ m, cnt q (replicate m (ty x, key x)) = if decide (q = (ty x, key x)) then Z.of_nat m else 0).
        { induction m as [|m IHm]; simpl; [rewrite cnt_nil; by case_decide|].
          rewrite cnt_cons, IHm. repeat case_decide; try congruence; lia. }
        rewrite H. case_decide; lia.
      + intros q. rewrite Hks', cnt_app. simpl.
        assert (H : ∀ m, cnt q (replicate m (ty x, key x)) = if decide (q = (ty x, key x)) then Z.of_nat m else 0).
        { induction m as [|m IHm]; simpl; [rewrite cnt_nil; by case_decide|].
          rewrite cnt_cons, IHm. repeat case_decide; try congruence; lia. }
        rewrite H. destruct q as [t k']. simpl.
        destruct (decide (k' = k)) as [->|Hk'].
        * rewrite (proj2 (dget_None u k)) by done. rewrite Hkx.
          repeat case_decide; try congruence; lia.
        * rewrite (decide_False (P := (t, k') = (ty x, key x))) by congruence.
          destruct (dget u k') as [[]|]; lia.
  Qed.

  Lemma histogram_page_ok comparable d ks (p : page A T) :
    (comparable (pdata p) = true → type_faithful (pdata p)) →
    cdict d ks → cdict (histogram_page ty key comparable d p) (ks ++ map tk (pdata p)).
  Proof.
    intros Hf Hd. unfold histogram_page. fold add_item.
    change (fold_left (λ d i, dset d (ty i.1, key i.1) (dget_or d (ty i.1, key i.1) 0 + i.2)))
      with (fold_left add_item).
    destruct (comparable (pdata p)).
    - unfold np_unique_counts.
      set (u := fold_left _ (pdata p) []).
      assert (Hu : udict u (pdata p)).
      { apply (udict_fold (pdata p) [] []). split; [constructor|]. done. }
      destruct Hu as [Hnd Hu]. eapply (uniq_items_fold (pdata p)); [done| |exact Hd|].
      + intros k x n Hin. apply dget_Some in Hin; [|done]. specialize (Hu k). rewrite Hin in Hu.
        destruct Hu as (Hx & <- & ->). split; [done|].
        by apply cnt_elem, elem_of_list_fmap_1.
      + intros [t k]. rewrite cnt_app. f_equal. simpl. specialize (Hu k).
        destruct (dget u k) as [[x n]|].
        * destruct Hu as (Hx & Hk & ->). destruct (decide (ty x = t)) as [<-|Hne].
          -- rewrite <- Hk at 1. change (ty x, key x) with (tk x). rewrite cnt_map_inj; [by rewrite Hk|].
             intros y Hy Hky. by apply Hf.
          -- apply cnt_zero. intros (y & [= -> Hy] & Hin)%elem_of_list_fmap.
             apply Hne, Hf; [done..|congruence].
        * apply cnt_zero. intros (x & [= -> ->] & Hx)%elem_of_list_fmap.
          assert (0 < cnt (key x) (map key (pdata p))) by (by apply cnt_elem, elem_of_list_fmap_1). lia.
    - assert (H : ∀ xs d ks, cdict d ks →
        cdict (fold_left add_item (map (λ x, (x, 1)) xs) d) (ks ++ map tk xs)).
      { clear. induction xs as [|x xs IH]; intros d ks Hd; simpl; [by rewrite app_nil_r|].
        replace (ks ++ tk x :: map tk xs) with ((ks ++ [tk x]) ++ map tk xs) by (by rewrite <- app_assoc).
        apply IH. apply cdict_dset. done. }
      by apply H.
  Qed.

  Lemma col_histogram_spec comparable c :
    Forall (λ p, comparable (pdata p) = true → type_faithful (pdata p)) c →
    counts_exactly (col_histogram ty key comparable c) (map (λ x, (ty x, key x)) (col_iter c)).
  Proof.
    intros Hf. apply cdict_counts. unfold col_histogram.
    change (map (λ x, (ty x, key x)) (col_iter c)) with ([] ++ map tk (col_iter c)).
    generalize (@cdict_nil (T * K) _). generalize (@nil (T * K)). generalize (@nil ((T * K) * Z)).
    induction Hf as [|p c Hp Hc IH]; intros d ks Hd; simpl.
    - change (map tk (@col_iter A T [])) with (@nil (T * K)). by rewrite app_nil_r.
    - rewrite col_iter_cons, map_app, app_assoc. apply IH. by apply histogram_page_ok.
  Qed.

  (** *** unique *)
  Lemma dedup_by_spec {B} `{EqDecision B} (f : A → B) seen xs :
    NoDup (map f (dedup_by f seen xs)) ∧
    (∀ b, b ∈ map f (dedup_by f seen xs) ↔ b ∈ map f xs ∧ b ∉ seen) ∧
    (∀ x, x ∈ dedup_by f seen xs → x ∈ xs).
  Proof.
    revert seen. induction xs as [|x xs IH]; intros seen; simpl.
    { split; [constructor|]. set_solver. }
    destruct (decide (f x ∈ seen)) as [Hx|Hx].
    - destruct (IH seen) as (Hnd & Hin & Hsub). split; [done|]. split; [|set_solver].
      intros b. rewrite Hin. set_solver.
    - destruct (IH (f x :: seen)) as (Hnd & Hin & Hsub). simpl. split; [|split].
      + apply list.NoDup_cons. split; [|done]. rewrite Hin. set_solver.
      + intros b. rewrite !elem_of_cons, Hin. destruct (decide (b = f x)); set_solver.
      + set_solver.
  Qed.

  Lemma uniq_spec comparable xs :
    type_faithful xs →
    NoDup (map key (uniq ty key comparable xs)) ∧
    (∀ k, k ∈ map key (uniq ty key comparable xs) ↔ k ∈ map key xs) ∧
    (∀ x, x ∈ uniq ty key comparable xs → x ∈ xs).
  Proof.
    intros Hf. unfold uniq. destruct (comparable xs).
    - destruct (dedup_by_spec key [] xs) as (Hnd & Hin & Hsub). split; [done|]. split; [|done].
      intros k. rewrite Hin. set_solver.
    - destruct (dedup_by_spec (λ x, (ty x, key x)) [] xs) as (Hnd & Hin & Hsub). split; [|split; [|done]].
      + set (r := dedup_by _ [] xs) in *. clearbody r. clear Hin.
        induction r as [|x r IH]; simpl; [constructor|]. simpl in Hnd.
        apply list.NoDup_cons in Hnd as [Hx Hnd]. apply list.NoDup_cons. split.
        * intros (y & Hy & Hyr)%elem_of_list_fmap. apply Hx, elem_of_list_fmap.
          exists y. split; [|done]. f_equal; [|done]. apply Hf; [apply Hsub; by left|apply Hsub; by right|done].
        * apply IH; [done|]. intros y Hy. apply Hsub. by right.
      + intros k. split.
        * intros (x & -> & Hx)%elem_of_list_fmap. by apply elem_of_list_fmap_1, Hsub.
        * intros (x & -> & Hx)%elem_of_list_fmap.
          assert (Hi : (ty x, key x) ∈ map (λ x, (ty x, key x)) (dedup_by (λ x, (ty x, key x)) [] xs)).
          { apply Hin. split; [|apply not_elem_of_nil]. apply elem_of_list_fmap. by exists x. }
          apply elem_of_list_fmap in Hi as (y & [= _ ->] & Hy). by apply elem_of_list_fmap_1.
  Qed.

  Lemma col_unique_spec comparable c :
    c ≠ [] → type_faithful (col_iter c) →
    ∃ u, col_unique ty key comparable c = Ok u ∧
         NoDup (map key u) ∧ (∀ k, k ∈ map key u ↔ k ∈ map key (col_iter c)).
  Proof.
    intros Hne Hf. unfold col_unique. destruct c as [|p0 c0]; [done|]. set (c := p0 :: c0) in *. clearbody c. clear Hne p0 c0.
    eexists. split; [done|]. set (xs := concat (map (λ p, uniq ty key comparable (pdata p)) c)).
    assert (Hpages : ∀ p, p ∈ c → type_faithful (pdata p)).
    { intros p Hp x y Hx Hy. apply Hf; unfold col_iter; apply elem_of_list_In, in_concat;
        exists (pdata p); (split; [by apply in_map, elem_of_list_In|by apply elem_of_list_In]). }
    assert (Hxs : (∀ k, k ∈ map key xs ↔ k ∈ map key (col_iter c)) ∧ (∀ x, x ∈ xs → x ∈ col_iter c)).
    { unfold xs. clear Hf xs. induction c as [|p c IH]; simpl; [done|].
      rewrite col_iter_cons, !map_app.
      destruct (uniq_spec comparable (pdata p)) as (_ & Hk & Hs); [apply Hpages; by left|].
      destruct IH as [IHk IHs]; [intros; apply Hpages; by right|].
      split; [|set_solver]. intros k. rewrite !elem_of_app, Hk, IHk. done. }
    destruct Hxs as [Hxk Hxs].
    destruct (uniq_spec comparable xs) as (Hnd & Hk & Hs).
    { intros x y Hx Hy. apply Hf; by apply Hxs. }
    split; [done|]. intros k. by rewrite Hk.
  Qed.

  (** *** count *)
  Lemma filter_ext_in' {B} (P Q : B → Prop) `{∀ x, Decision (P x), ∀ x, Decision (Q x)} (l : list B) :
    (∀ x, x ∈ l → P x ↔ Q x) → filter P l = filter Q l.
  Proof.
    induction l as [|x l IH]; intros Hpq; [done|]. rewrite !filter_cons.
    rewrite IH by (intros; apply Hpq; by right).
    destruct (Hpq x) as [H1 H2]; [by left|]. repeat case_decide; naive_solver.
  Qed.

  Lemma col_count_spec is_obj c v :
    type_faithful (v :: col_iter c) →
    col_count ty key is_obj c v = count_if (λ x, key x = key v) (col_iter c).
  Proof.
    intros Hf. unfold col_count.
    assert (H : ∀ n, fold_left (λ n p, n +
      if is_obj p
      then zlen (filter (λ x, ty x = ty v ∧ key x = key v) (pdata p))
      else zlen (filter (λ x, key x = key v) (pdata p))) c n = n + count_if (λ x, key x = key v) (col_iter c)).
    { induction c as [|p c IH]; intros n; simpl; [unfold count_if; simpl; lia|].
      rewrite IH.
      - unfold count_if. rewrite col_iter_cons, list.filter_app, app_length.
        assert (He : length (filter (λ x, ty x = ty v ∧ key x = key v) (pdata p))
                     = length (filter (λ x, key x = key v) (pdata p))).
        { f_equal. apply filter_ext_in'. intros x Hx. split; [tauto|]. intros Hk. split; [|done].
          apply Hf; [|by left|done]. rewrite col_iter_cons. set_solver. }
        destruct (is_obj p); rewrite ?He; lia.
      - intros x y Hx Hy. apply Hf; rewrite col_iter_cons; set_solver. }
    rewrite H. lia.
  Qed.
End stats.
