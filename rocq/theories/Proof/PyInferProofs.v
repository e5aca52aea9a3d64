From Coq Require Import String ZifyBool.
From Verif.Spec Require Import PyTexts.
From Verif.Model Require Import PyInfer.
From Verif.Proof Require Import DictLemmas RankProofs NpyProofs InferProofs.
Local Open Scope string_scope.
Local Open Scope list_scope.
Local Open Scope Z_scope.

(** ** The order of the types *)

(** the invariant of a column of one kind [T] *)
Definition one_kind (T : kind) (hist : list kind) (r : prank kind) : Prop :=
  rank_ok types hist r ∧ Forall (λ t, t = T ∨ t = KDateTime) hist ∧ (T ∉ hist → pr_list r = types).

Lemma types_NoDup : NoDup types.
Proof. apply (bool_decide_unpack _). vm_compute. exact I. Qed.

Lemma count_pos (T : kind) hist : 0 < count_if (λ k, k = T) hist ↔ T ∈ hist.
Proof.
  unfold count_if. split.
  - intros H. destruct (filter (λ k, k = T) hist) as [|x l] eqn:E; [cbn in H; lia|].
    assert (x ∈ filter (λ k, k = T) hist) as Hx by (rewrite E; left). by apply elem_of_list_filter in Hx as [-> ?].
  - intros H. assert (T ∈ filter (λ k, k = T) hist) as Hx by (by apply elem_of_list_filter).
    destruct (filter _ _); [by apply elem_of_nil in Hx|]. cbn. lia.
Qed.

(** what comes before [T] *)
Definition earlier (T t : kind) : Prop := ∃ i j, types !! i = Some t ∧ types !! j = Some T ∧ (i < j)%nat.

Lemma datetime_first T : T ∈ types → T ≠ KDateTime → earlier T KDateTime.
Proof.
  intros [j Hj]%elem_of_list_lookup Hne. exists 0%nat, j. split; [done|]. split; [done|].
  destruct j; [by injection Hj as <-|lia].
Qed.

Lemma before_T T hist r i j t : T ∈ types → one_kind T hist r →
  pr_list r !! i = Some t → pr_list r !! j = Some T → (i < j)%nat → earlier T t.
Proof.
  intros HT (((Hnd & Hlen & Hl) & Hp & Hd) & Hh & H0) Hi Hj Hij.
  assert (t ≠ T) as Hne. { intros ->. pose proof (NoDup_lookup _ _ _ _ Hnd Hi Hj). lia. }
  destruct (decide (T ∈ hist)) as [Hin|Hin].
  - destruct (Hl _ _ Hi) as [_ Ri], (Hl _ _ Hj) as [_ Rj].
    pose proof (Hd _ _ _ _ Hij Ri Rj) as Hle. cbv beta in Hle. apply count_pos in Hin.
    assert (t ∈ hist) as Ht by (apply count_pos; lia).
    rewrite list.Forall_forall in Hh. destruct (Hh _ Ht) as [->| ->]; [done|]. apply datetime_first; congruence.
  - rewrite H0 in Hi, Hj by done. by exists i, j.
Qed.

Lemma head_kind T hist r t l : T ∈ types → one_kind T hist r → pr_list r = t :: l → t = T ∨ t = KDateTime.
Proof.
  intros HT (((Hnd & Hlen & Hl) & Hp & Hd) & Hh & H0) E.
  destruct (decide (T ∈ hist)) as [Hin|Hin].
  - destruct (decide (t = T)) as [->|Hne]; [by left|]. right.
    assert (T ∈ pr_list r) as HTr by (by rewrite Hp). apply elem_of_list_lookup in HTr as [j Hj].
    assert (pr_list r !! 0%nat = Some t) as Hi by (by rewrite E).
    destruct j as [|j]; [congruence|].
    destruct (Hl _ _ Hi) as [_ Ri], (Hl _ _ Hj) as [_ Rj].
    pose proof (Hd 0%nat (S j) _ _ ltac:(lia) Ri Rj) as Hle. cbv beta in Hle. apply count_pos in Hin.
    assert (t ∈ hist) as Ht by (apply count_pos; lia).
    rewrite list.Forall_forall in Hh. destruct (Hh _ Ht) as [->| ->]; [done|done].
  - rewrite H0 in E by done. injection E as <- _. by right.
Qed.

(** a match at the front changes no order *)
Lemma match_front (r : prank kind) t l r' hist : rank_ok types hist r → pr_list r = t :: l → prank_match r t = Ok r' →
  pr_list r' = pr_list r.
Proof.
  intros ((Hnd & Hlen & Hl) & _) E H.
  destruct (Hl 0%nat t) as [Hg _]; [by rewrite E|]. unfold prank_match in H. rewrite Hg in H.
  by injection H as <-.
Qed.

Lemma one_kind_match T hist r t : T ∈ types → one_kind T hist r → (t = T ∨ ∃ l, pr_list r = t :: l) →
  ∃ r', prank_match r t = Ok r' ∧ one_kind T (hist ++ [t]) r'.
Proof.
  intros HT Hr Ht. assert (t = T ∨ t = KDateTime) as Hk.
  { destruct Ht as [->|[l E]]; [by left|]. by eapply head_kind. }
  destruct Hr as (Hok & Hh & H0).
  assert (t ∈ types) as Hin by (destruct Hk as [->| ->]; [done|left]).
  destruct (rank_match_ok types hist r t Hok Hin) as (r' & Hm & Hok').
  exists r'. split; [done|]. split; [done|]. split.
  - apply list.Forall_app. split; [done|]. rewrite list.Forall_cons. split; [done|constructor].
  - intros [Hn1 Hn2]%not_elem_of_app. destruct Ht as [->|[l E]]; [by destruct Hn2; left|].
    rewrite (match_front _ _ _ _ _ Hok E Hm). by apply H0.
Qed.

(** ** One kind *)
Definition refused (e : exn) : Prop := e = ValueError ∨ e = TypeError.

Section Lib.
  Context (lib : py_lib).

  Lemma first_type_at v ts i T w : ts !! i = Some T → infer lib v T = Ok w →
    (∀ j t, (j < i)%nat → ts !! j = Some t → ∃ e, infer lib v t = Err e ∧ refused e) →
    first_type lib v ts = Ok (Some (T, w)).
  Proof.
    revert i. induction ts as [|t ts IH]; intros i Hi Hw Hb; [done|]. destruct i as [|i]; cbn [first_type].
    - cbn in Hi. injection Hi as ->. by rewrite Hw.
    - destruct (Hb 0%nat t) as (e & -> & [-> | ->]); [lia|done| |];
        (apply (IH i); [done|done|intros j t' Hj Ht'; apply (Hb (S j)); [lia|done]]).
  Qed.

  Lemma first_type_none v t ts : missing v → t ≠ KStr → first_type lib v (t :: ts) = Ok (Some (t, CNone)).
  Proof.
    intros [->|(s & -> & Hs)] Ht; cbn [first_type infer]; [done|].
    change missing_texts with none_texts in Hs. rewrite (bool_decide_true (s ∈ none_texts)) by done. by destruct t.
  Qed.

  (** [v] is read as [w] by [T] and by no type before *)
  Definition kind_only (T : kind) (v w : cell) : Prop :=
    infer lib v T = Ok w ∧ ∀ t, earlier T t → ∃ e, infer lib v t = Err e ∧ refused e.

  Lemma guess_loop_uniform T vs ws : T ∈ types →
    Forall2 (λ v w, (missing v ∧ w = CNone ∧ T ≠ KStr) ∨ kind_only T v w) vs ws →
    ∀ hist r, one_kind T hist r → guess_loop lib r vs = Ok ws.
  Proof.
    intros HT. induction 1 as [|v w vs ws Hv Hvs IH]; intros hist r Hr; [done|]. cbn [guess_loop].
    destruct Hv as [(Hm & -> & HS)|[Hw Hb]].
    - destruct (pr_list r) as [|t l] eqn:E.
      { destruct Hr as ((_ & Hp & _) & _). rewrite E in Hp. by apply Permutation_nil_l in Hp. }
      rewrite first_type_none; [|done|].
      2:{ intros ->. destruct (head_kind _ _ _ _ _ HT Hr E); [by subst|done]. }
      cbn [res_bind]. destruct (one_kind_match T hist r t HT Hr) as (r' & Hm' & Hr'); [right; by eauto|].
      rewrite Hm'. cbn [res_bind]. by rewrite (IH _ _ Hr').
    - assert (T ∈ pr_list r) as HTr. { destruct Hr as ((_ & Hp & _) & _). by rewrite Hp. }
      apply elem_of_list_lookup in HTr as [i Hi].
      rewrite (first_type_at v _ i T w Hi Hw).
      + cbn [res_bind]. destruct (one_kind_match T hist r T HT Hr) as (r' & Hm' & Hr'); [by left|].
        rewrite Hm'. cbn [res_bind]. by rewrite (IH _ _ Hr').
      + intros j t Hj Ht. apply Hb. by eapply before_T.
  Qed.

  Lemma guess_uniform T vs ws : T ∈ types →
    Forall2 (λ v w, (missing v ∧ w = CNone ∧ T ≠ KStr) ∨ kind_only T v w) vs ws → guess lib vs = Ok ws.
  Proof.
    intros HT H. apply (guess_loop_uniform T vs ws HT H []). split; [apply rank_new_ok, types_NoDup|].
    split; [constructor|done].
  Qed.

  (** ** Every result is a reading *)
  Lemma first_type_sound v ts t w : first_type lib v ts = Ok (Some (t, w)) → t ∈ ts ∧ infer lib v t = Ok w.
  Proof.
    induction ts as [|t' ts IH]; cbn [first_type]; [done|].
    destruct (infer lib v t') as [w'|e] eqn:E.
    - intros [= <- <-]. split; [left|done].
    - destruct e; try done; intros [? ?]%IH; (split; [by right|done]).
  Qed.
  Lemma infer_str v : ∃ w, infer lib v KStr = Ok w.
  Proof. destruct v; cbn; by eauto. Qed.
  Lemma first_type_some v ts o : KStr ∈ ts → first_type lib v ts = Ok o → o ≠ None.
  Proof.
    intros Hk. induction ts as [|t ts IH]; [by apply elem_of_nil in Hk|]. cbn [first_type].
    destruct (infer lib v t) as [w|e] eqn:E; [by intros [= <-]|].
    apply elem_of_cons in Hk as [<-|Hk]; [destruct (infer_str v) as [w E']; congruence|].
    destruct e; try done; by apply IH.
  Qed.

  Lemma guess_loop_each vs : ∀ hist r ws, rank_ok types hist r → guess_loop lib r vs = Ok ws →
    Forall2 (λ v w, ∃ t, t ∈ types ∧ infer lib v t = Ok w) vs ws.
  Proof.
    induction vs as [|v vs IH]; intros hist r ws Hr H; cbn [guess_loop] in H; [by injection H as <-|].
    assert (pr_list r ≡ₚ types) as Hp by apply Hr.
    destruct (first_type lib v (pr_list r)) as [o|] eqn:E; [|done]. cbn [res_bind] in H.
    destruct o as [[t w]|].
    2:{ apply first_type_some in E; [done|]. rewrite Hp. apply (bool_decide_unpack _). vm_compute. exact I. }
    apply first_type_sound in E as [Ht Hw]. rewrite Hp in Ht.
    destruct (rank_match_ok types hist r t Hr Ht) as (r' & Hm & Hr'). rewrite Hm in H. cbn [res_bind] in H.
    destruct (guess_loop lib r' vs) as [ws'|] eqn:El; [|done]. injection H as <-.
    constructor; [by eauto|]. by eapply IH.
  Qed.
  Lemma guess_each vs ws : guess lib vs = Ok ws → Forall2 (λ v w, ∃ t, t ∈ types ∧ infer lib v t = Ok w) vs ws.
  Proof. apply (guess_loop_each vs []). apply rank_new_ok, types_NoDup. Qed.
End Lib.
