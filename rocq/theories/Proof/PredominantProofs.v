(** Proofs for Props/Predominant.v. *)
From Coq Require Import String.
From Verif.Spec Require Import PySort Predominant.
From Verif.Model Require Import Predominant.
Local Open Scope list_scope.
Local Open Scope Z_scope.

Section predominant.
  Context {N A T : Type} `{EqDecision T} (none_type : T) (type_name : T → string).
  Notation geb := (λ a b : T * Z, b.2 <=? a.2).

  Lemma first_largest (l : list (T * Z)) :
    l ≠ [] → ∃ x rest pre post, py_sort geb l = x :: rest ∧ l = pre ++ x :: post ∧
      (∀ y, y ∈ pre → y.2 < x.2) ∧ (∀ y, y ∈ post → y.2 <= x.2).
  Proof.
    induction l as [|a l IH]; [done|]. intros _. destruct l as [|b l].
    - exists a, [], [], []. repeat split; intros y Hy; by apply elem_of_nil in Hy.
    - destruct IH as (x & rest & pre & post & Hs & Hl & H1 & H2); [done|].
      change (py_sort geb (a :: b :: l)) with (py_insert geb a (py_sort geb (b :: l))). rewrite Hs, Hl. cbn [py_insert].
      destruct (Z.leb_spec x.2 a.2).
      + exists a, (x :: rest), [], (pre ++ x :: post). split; [done|]. split; [done|]. split; [intros y Hy; by apply elem_of_nil in Hy|].
        intros y [Hy|[->|Hy]%elem_of_cons]%elem_of_app; [apply H1 in Hy; lia|lia|apply H2 in Hy; lia].
      + exists x, (py_insert geb a rest), (a :: pre), post. split; [done|]. split; [done|]. split; [|done].
        intros y [->|Hy]%elem_of_cons; [done|by apply H1].
  Qed.

  Lemma count_pos (k : T) ks : 0 < count_if (λ x, x = k) ks ↔ k ∈ ks.
  Proof.
    unfold count_if. induction ks as [|x ks IH].
    - rewrite filter_nil. split; [done|]. intros H. by apply elem_of_nil in H.
    - rewrite filter_cons, elem_of_cons. case_decide as E; simpl; [subst; split; [by left|lia]|].
      split; [intros H; right; by apply IH|]. intros [->|H]; [done|by apply IH].
  Qed.

  Lemma named_first (d : list (T * Z)) (pre post : list (T * Z)) k n :
    d = pre ++ (k, n) :: post → k ≠ none_type →
    (∀ k' n', (k', n') ∈ pre → k' ≠ none_type → n' < n) → (∀ k' n', (k', n') ∈ post → k' ≠ none_type → n' <= n) →
    select_type_name none_type type_name d = type_name k.
  Proof.
    intros -> Hk H1 H2. unfold select_type_name.
    set (f := filter (λ t : T * Z, t.1 ≠ none_type) (pre ++ (k, n) :: post)).
    assert (Hf : f = filter (λ t : T * Z, t.1 ≠ none_type) pre ++ (k, n) :: filter (λ t : T * Z, t.1 ≠ none_type) post).
    { unfold f. rewrite list.filter_app. f_equal. by rewrite filter_cons_True by done. }
    destruct (first_largest f) as (x & rest & pre' & post' & Hs & Hl & G1 & G2).
    { rewrite Hf. by destruct (filter _ pre). }
    rewrite Hs. f_equal.
    assert (x.2 = n ∧ (x = (k, n) ∨ x ∈ filter (λ t : T * Z, t.1 ≠ none_type) pre ∨ x ∈ filter (λ t : T * Z, t.1 ≠ none_type) post)) as [Hn Hx].
    { assert (Hin : x ∈ f) by (rewrite Hl; apply elem_of_app; right; left).
      assert (Hkn : (k, n) ∈ f) by (rewrite Hf; apply elem_of_app; right; left).
      assert (n <= x.2).
      { rewrite Hl in Hkn. apply elem_of_app in Hkn as [Hk'|[<-|Hk']%elem_of_cons]; [apply G1 in Hk'; simpl in Hk'; lia|done|].
        by apply G2 in Hk'. }
      rewrite Hf in Hin. apply elem_of_app in Hin as [Hin|[->|Hin]%elem_of_cons]; [|split; [done|by left]|].
      - pose proof Hin as [Hp Hq]%elem_of_list_filter. destruct x as [k' n']. specialize (H1 k' n' Hq Hp). simpl in *. lia.
      - pose proof Hin as [Hp Hq]%elem_of_list_filter. destruct x as [k' n']. specialize (H2 k' n' Hq Hp). simpl in *. split; [lia|auto]. }
    (* the first of the largest: x cannot stand behind (k, n) *)
    clear Hx. rewrite Hf in Hl. clear Hf Hs.
    assert (F1 : ∀ y, y ∈ filter (λ t : T * Z, t.1 ≠ none_type) pre → y.2 < n).
    { intros [k' n'] [Hp Hq]%elem_of_list_filter. by apply (H1 k' n'). }
    revert pre' Hl G1. generalize (filter (λ t : T * Z, t.1 ≠ none_type) post) as q.
    induction (filter (λ t : T * Z, t.1 ≠ none_type) pre) as [|y p IH]; intros q pre' Hl G1.
    - destruct pre' as [|z pre']; simpl in Hl; [by injection Hl as <- _|]. injection Hl as <- _.
      exfalso. specialize (G1 (k, n) ltac:(left)). simpl in G1. lia.
    - destruct pre' as [|z pre']; simpl in Hl.
      + injection Hl as <- _. specialize (F1 y ltac:(left)). lia.
      + injection Hl as <- Hl. apply (IH ltac:(intros; apply F1; by right) q pre' Hl). intros; apply G1. by right.
  Qed.

  Lemma selected (d : list (T * Z)) (ks : list T) :
    counts_exactly d ks →
    (Forall (λ k, k = none_type) ks ∧ select_type_name none_type type_name d = "empty"%string) ∨
    ∃ k, most_frequent none_type ks k ∧ select_type_name none_type type_name d = type_name k.
  Proof.
    intros [_ Hd]. unfold select_type_name.
    destruct (decide (filter (λ t : T * Z, t.1 ≠ none_type) d = [])) as [E|E].
    - left. rewrite E. split; [|done]. apply list.Forall_forall. intros k Hk%count_pos.
      destruct (decide (k = none_type)) as [|Hn]; [done|]. exfalso.
      assert (H : (k, count_if (λ x, x = k) ks) ∈ filter (λ t : T * Z, t.1 ≠ none_type) d).
      { apply elem_of_list_filter. split; [done|]. by apply Hd. }
      rewrite E in H. by apply elem_of_nil in H.
    - right. destruct (first_largest _ E) as (x & rest & pre & post & Hs & Hl & H1 & H2). rewrite Hs.
      assert (Hx : x ∈ filter (λ t : T * Z, t.1 ≠ none_type) d) by (rewrite Hl; apply elem_of_app; right; left).
      apply elem_of_list_filter in Hx as [Hx1 Hx2]. destruct x as [k n]. simpl in *. apply Hd in Hx2 as [Hp ->].
      exists k. split; [|done]. split; [by apply count_pos|]. split; [done|]. intros k' Hk'.
      destruct (decide (0 < count_if (λ x, x = k') ks)) as [Hp'|]; [|lia].
      assert (H : (k', count_if (λ x, x = k') ks) ∈ filter (λ t : T * Z, t.1 ≠ none_type) d).
      { apply elem_of_list_filter. split; [done|]. by apply Hd. }
      rewrite Hl in H. apply elem_of_app in H as [H|[H|H]%elem_of_cons].
      + apply H1 in H. simpl in H. lia.
      + injection H as -> _. lia.
      + by apply H2 in H.
  Qed.

  Lemma table_selected (t : table N A T) (ty : A → T) :
    Forall (λ c, counts_exactly (col_types c.2) (map ty (col_iter c.2))) t →
    Forall2 (λ c r, r.1 = c.1 ∧
      ((Forall (λ v, ty v = none_type) c.2 ∧ r.2 = "empty"%string) ∨
       ∃ k, most_frequent none_type (map ty c.2) k ∧ r.2 = type_name k))
      (contents t) (get_predominant_types none_type type_name t None).
  Proof.
    induction 1 as [|[n c] t H Ht IH]; [constructor|]. constructor; [|exact IH]. simpl. split; [done|].
    destruct (selected _ _ H) as [[H1 H2]|H1]; [left; split; [|done]|by right]. by apply Forall_fmap in H1.
  Qed.

  Lemma given_selected (t : table N A T) (ds : list (N * list (T * Z))) (kss : list (list T)) :
    Forall2 (λ e ks, counts_exactly e.2 ks) ds kss →
    Forall2 (λ e r, r.1 = e.1.1 ∧
      ((Forall (λ k, k = none_type) e.2 ∧ r.2 = "empty"%string) ∨
       ∃ k, most_frequent none_type e.2 k ∧ r.2 = type_name k))
      (zip ds kss) (get_predominant_types none_type type_name t (Some ds)).
  Proof.
    induction 1 as [|e ks ds kss H Ht IH]; [constructor|]. constructor; [|exact IH]. simpl. split; [done|].
    exact (selected _ _ H).
  Qed.
End predominant.
