From Verif.Model Require Import Names.
From Coq Require Import Lia.

Lemma string_app_inj (a b c : string) : (a +:+ b)%string = (a +:+ c)%string → b = c.
Proof. induction a as [|x a IH]; simpl; [done|]. intros H. injection H. auto. Qed.

Lemma numbered_inj w i j : numbered w i = numbered w j → i = j.
Proof.
  unfold numbered. intros H. apply string_app_inj in H. simpl in H.
  injection H as H. by apply (inj pretty) in H.
Qed.

(** the loop from counter [i]: either it ends at the first free candidate, or
    the [fuel + 1] candidates are all taken *)
Lemma name_loop_spec fuel w names i :
  match name_loop fuel w names (numbered w i) (i + 1) with
  | Some n => ∃ k, (i <= k)%N ∧ n = numbered w k ∧ n ∉ names ∧
                   ∀ j, (i <= j < k)%N → numbered w j ∈ names
  | None => ∀ j, (i <= j <= i + N.of_nat fuel)%N → numbered w j ∈ names
  end.
Proof.
  revert i. induction fuel as [|fuel IH]; intros i; simpl; destruct (decide _) as [Hin|Hout].
  - intros j Hj. by replace j with i by lia.
  - exists i. split_and!; [lia|done|done|intros; lia].
  - specialize (IH (i + 1)%N).
    destruct (name_loop fuel w names (numbered w (i + 1)) (i + 1 + 1)) as [n|].
    + destruct IH as (k & Hk & -> & Hn & Hlt). exists k. split_and!; [lia|done|done|].
      intros j Hj. destruct (decide (j = i)) as [->|]; [done|]. apply Hlt. lia.
    + intros j Hj. destruct (decide (j = i)) as [->|]; [done|]. apply IH. lia.
  - exists i. split_and!; [lia|done|done|intros; lia].
Qed.

Lemma numbered_not_self w i : numbered w i ≠ w.
Proof.
  unfold numbered. intros H. apply (f_equal String.length) in H.
  assert (∀ a b, String.length (a +:+ b)%string = (String.length a + String.length b)%nat) as Ha.
  { intros a b. induction a; simpl; auto. }
  rewrite !Ha in H. simpl in H. lia.
Qed.

Lemma unique_name_spec w names :
  ∃ n, unique_name w names = Some n ∧ n ∉ names ∧
       ((w ∉ names ∧ n = w) ∨
        (w ∈ names ∧ ∃ k, (1 <= k)%N ∧ n = numbered w k ∧
                          ∀ j, (1 <= j < k)%N → numbered w j ∈ names)).
Proof.
  unfold unique_name. destruct names as [|x names'] eqn:E.
  { exists w. simpl. split; [done|]. split; [apply not_elem_of_nil|]. left.
    split; [apply not_elem_of_nil|done]. }
  rewrite <- E. assert (length names = S (length names')) as -> by (by rewrite E).
  cbn [name_loop]. destruct (decide (w ∈ names)) as [Hw|Hw].
  2:{ exists w. auto. }
  pose proof (name_loop_spec (length names') w names 1) as H.
  destruct (name_loop _ _ _ _ _) as [n|].
  - destruct H as (k & Hk & -> & Hn & Hlt). exists (numbered w k).
    split; [done|]. split; [done|]. right. split; [done|]. by exists k.
  - exfalso.
    set (cands := w :: map (λ j, numbered w (N.of_nat j)) (seq 1 (S (length names')))).
    assert (NoDup cands) as Hnd.
    { apply list.NoDup_cons. split.
      - intros (j & Hj & _)%elem_of_list_fmap. by apply (numbered_not_self w (N.of_nat j)).
      - apply NoDup_fmap_2; [|apply NoDup_seq].
        intros i j Hij%numbered_inj. lia. }
    assert (cands ⊆ names) as Hsub.
    { intros y [->|Hy]%elem_of_cons; [done|].
      apply elem_of_list_fmap in Hy as (j & -> & Hj%elem_of_seq). apply H. lia. }
    pose proof (submseteq_length _ _ (NoDup_submseteq _ _ Hnd Hsub)) as Hlen.
    subst names cands. cbn [length] in Hlen. rewrite map_length, seq_length in Hlen. lia.
Qed.

Lemma dedup_spec_aux hs cs :
  NoDup cs →
  ∃ ns, fold_left (λ acc h, cs ← acc; n ← unique_name h cs; Some (cs ++ [n])) hs (Some cs)
        = Some (cs ++ ns) ∧ NoDup (cs ++ ns) ∧ length ns = length hs ∧
        ∀ i h n, hs !! i = Some h → ns !! i = Some n →
          (h ∉ cs ++ take i ns → n = h) ∧ (h ∈ cs ++ take i ns → ∃ k, n = numbered h k).
Proof.
  revert cs. induction hs as [|h hs IH]; intros cs Hnd.
  { exists []. rewrite app_nil_r. split_and!; done. }
  destruct (unique_name_spec h cs) as (n & Hn & Hfresh & Hcase).
  assert (NoDup (cs ++ [n])) as Hnd'.
  { apply list.NoDup_app. split; [done|]. split; [|apply NoDup_singleton].
    intros x Hx ->%elem_of_list_singleton. done. }
  destruct (IH (cs ++ [n]) Hnd') as (ns & Hf & Hnd2 & Hlen & Hi).
  exists (n :: ns). cbn [fold_left]. simpl mbind. rewrite Hn. simpl mbind.
  rewrite <- app_assoc in Hf, Hnd2. simpl in Hf, Hnd2. split_and!; [done|done|simpl; lia|].
  intros [|i] h' n' Hh' Hn'; simpl in Hh', Hn'.
  - injection Hh' as <-. injection Hn' as <-. rewrite app_nil_r. split; intros Hin.
    + by destruct Hcase as [[_ ?]|[? _]].
    + destruct Hcase as [[? _]|[_ (k & _ & -> & _)]]; [done|]. by exists k.
  - specialize (Hi i h' n' Hh' Hn'). rewrite <- app_assoc in Hi. simpl in *. exact Hi.
Qed.

Lemma dedup_headers_spec hs :
  ∃ ns, dedup_headers hs = Some ns ∧ NoDup ns ∧ length ns = length hs ∧
        ∀ i h n, hs !! i = Some h → ns !! i = Some n →
          (h ∉ take i ns → n = h) ∧ (h ∈ take i ns → ∃ k, n = numbered h k).
Proof. exact (dedup_spec_aux hs [] (NoDup_nil_2)). Qed.
