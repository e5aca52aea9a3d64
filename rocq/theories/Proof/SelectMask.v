(** Where the used part of the mask ends. *)
From Verif.Model Require Import ColumnSelect.

Lemma first_unused_spec (u : list mask) k i :
  Forall (λ m, m ≠ UNUSED) u → (0 < k)%nat → first_unused i (u ++ replicate k UNUSED) = Some (i + length u)%nat.
Proof.
  intros Hu Hk. unfold first_unused.
  assert (Hf : list_find (λ m, m = UNUSED) (u ++ replicate k UNUSED) = Some (length u, UNUSED)).
  { apply list_find_Some. split_and!.
    - rewrite lookup_app_r by lia. rewrite Nat.sub_diag. apply lookup_replicate. split; [done|lia].
    - done.
    - intros j y Hj Hlt. rewrite lookup_app_l in Hj by lia.
      pose proof (proj1 (list.Forall_lookup _ _) Hu j y Hj) as H. exact H. }
  rewrite Hf. reflexivity.
Qed.

Section mask.
  Context (step : nat) (Hstep : (0 < step)%nat).

  Lemma search_loop_spec (u : list mask) k fuel i :
    Forall (λ m, m ≠ UNUSED) u → (0 < k)%nat → (i ≤ length u)%nat → (length u + k - i < fuel)%nat →
    search_loop step fuel (u ++ replicate k UNUSED) i = length u.
  Proof using Hstep.
    intros Hu Hk. revert i. induction fuel as [|fuel IH]; intros i Hi Hf; [lia|].
    cbn [search_loop]. rewrite app_length, replicate_length.
    destruct (i <? length u + k)%nat eqn:E; [|apply Nat.ltb_ge in E; lia]. apply Nat.ltb_lt in E.
    set (nx := Nat.min (i + step) (length u + k)).
    assert (Hnx : (i < nx ∧ nx ≤ length u + k)%nat) by (subst nx; lia).
    destruct (decide ((u ++ replicate k UNUSED) !! (nx - 1)%nat ≠ Some UNUSED)) as [Hne|Heq].
    - assert (Hlt : (nx - 1 < length u)%nat).
      { destruct (decide (nx - 1 < length u)%nat) as [|Hge]; [done|]. exfalso. apply Hne.
        rewrite lookup_app_r by lia. apply lookup_replicate. split; [done|lia]. }
      apply IH; lia.
    - assert (Hge : (length u ≤ nx - 1)%nat).
      { destruct (decide (length u ≤ nx - 1)%nat) as [|Hlt]; [done|]. exfalso. apply Heq. intros H.
        rewrite lookup_app_l in H by lia. exact (proj1 (list.Forall_lookup _ _) Hu _ _ H eq_refl). }
      rewrite drop_app_le by lia. rewrite take_app_ge by (rewrite drop_length; lia).
      rewrite take_replicate, drop_length.
      rewrite first_unused_spec.
      + rewrite drop_length. lia.
      + apply Forall_drop. done.
      + lia.
  Qed.

  Lemma unused_mask_search_spec (u : list mask) k :
    Forall (λ m, m ≠ UNUSED) u → (0 < length u + k)%nat →
    unused_mask_search step (u ++ replicate k UNUSED) = Ok (length u).
  Proof using Hstep.
    intros Hu Hk. unfold unused_mask_search.
    destruct k as [|k].
    - rewrite app_nil_r. destruct (list.last u) as [m|] eqn:El.
      + destruct (decide (m ≠ UNUSED)) as [|Hn]; [done|]. exfalso. apply Hn.
        apply last_Some_elem_of in El. exact (proj1 (list.Forall_forall _ _) Hu m El).
      + apply last_None in El. subst u. simpl in Hk. lia.
    - assert (El : list.last (u ++ replicate (S k) UNUSED) = Some UNUSED).
      { replace (S k) with (k + 1)%nat by lia. rewrite replicate_add, app_assoc. simpl replicate. apply list.last_snoc. }
      rewrite El. destruct (decide (UNUSED ≠ UNUSED)) as [Hn|_]; [done|].
      destruct u as [|m u].
      + simpl app. change (head (UNUSED :: replicate k UNUSED)) with (Some UNUSED). rewrite decide_True by done. done.
      + change (head ((m :: u) ++ replicate (S k) UNUSED)) with (Some m). rewrite decide_False.
        * f_equal. apply search_loop_spec; [done|lia|lia|]. rewrite app_length, replicate_length. lia.
        * intros H. inversion H. subst. inversion Hu; done.
  Qed.
End mask.
