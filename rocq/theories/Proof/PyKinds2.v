From Coq Require Import String ZifyBool.
From Verif.Spec Require Import PyTexts.
From Verif.Proof Require Import DictLemmas NpyProofs InferProofs PyInferProofs PyTextProofs PyKinds.
From Verif.Model Require Import PyInfer.
Local Open Scope string_scope.
Local Open Scope list_scope.
Local Open Scope Z_scope.

Lemma remove_all_app c a b : remove_all c (a ++ b) = remove_all c a ++ remove_all c b.
Proof. apply list.filter_app. Qed.
Lemma remove_all_none c s : c ∉ s → remove_all c s = s.
Proof.
  unfold remove_all. induction s as [|x s IH]; intros H; [done|]. apply not_elem_of_cons in H as [H1 H2].
  rewrite filter_cons_True by congruence. by rewrite IH.
Qed.
Lemma remove_all_in c x s : x ∈ remove_all c s ↔ x ≠ c ∧ x ∈ s.
Proof. unfold remove_all. by rewrite elem_of_list_filter. Qed.
Lemma digits_in_inv s c : Forall digit s → c ∈ s → digit c.
Proof. rewrite list.Forall_forall. auto. Qed.

Lemma groups_remove c s ds : ¬ digit c → groups c s ds → remove_all c s = ds.
Proof.
  intros Hc. induction 1 as [|g s ds Hg Lg H IH]; [done|].
  change (c :: g ++ s) with ([c] ++ g ++ s). rewrite !remove_all_app, IH.
  rewrite (remove_all_none c g) by (by apply not_in_digits). unfold remove_all. by rewrite filter_cons_False by (by intros []).
Qed.
Lemma groups_chars c s ds : groups c s ds → Forall (λ x, digit x ∨ x = c) s ∧ Forall digit ds.
Proof.
  induction 1 as [|g s ds Hg Lg H [IH1 IH2]]; [done|]. rewrite list.Forall_cons, !list.Forall_app. split_and!; auto.
  eapply list.Forall_impl; [exact Hg|auto].
Qed.

Lemma py_int_signed sign ds : ds ≠ [] → Forall digit ds → (sign = [] ∨ sign = [43] ∨ sign = [45]) →
  py_int (sign ++ ds) = Ok (if decide (sign = [45]) then - digits_value ds else digits_value ds).
Proof.
  intros H0 Hd Hs. assert (number (digits_value ds) ds) as Hn by done.
  destruct Hs as [->|[-> | ->]].
  - rewrite decide_False by done. by apply py_int_number.
  - cbn [app]. unfold py_int. rewrite (proj2 (all_digits_spec ds) Hd).
    destruct ds as [|x ds]; [done|]. cbn [length]. assert ((0 <? Z.of_nat (S (length ds))) = true) as -> by lia. done.
  - cbn [app]. unfold py_int. rewrite (proj2 (all_digits_spec ds) Hd).
    destruct ds as [|x ds]; [done|]. cbn [length]. assert ((0 <? Z.of_nat (S (length ds))) = true) as -> by lia. done.
Qed.

Lemma int_text_chars n s : int_text 44 n s → Forall (λ c, digit c ∨ c = 43 ∨ c = 45 ∨ c = 44) s ∧ s ≠ [].
Proof.
  intros (sign & g & rest & ds & Hg0 & Hg & Hr & -> & Hs). split.
  - rewrite !list.Forall_app. split_and!.
    + destruct Hs as [[[-> | ->] _]|[-> _]]; [done| |]; rewrite list.Forall_cons, list.Forall_nil; auto.
    + eapply list.Forall_impl; [exact Hg|auto].
    + eapply list.Forall_impl; [exact (proj1 (groups_chars _ _ _ Hr))|]. cbn. tauto.
  - destruct sign; [|done]. by destruct g.
Qed.

Lemma infer_int_text n s : int_text 44 n s → infer_int s = Ok n.
Proof.
  intros Ht. pose proof (int_text_chars _ _ Ht) as [Hc _]. destruct Ht as (sign & g & rest & ds & Hg0 & Hg & Hr & -> & Hs).
  pose proof (groups_chars _ _ _ Hr) as [_ Hds]. rewrite list.Forall_forall in Hc.
  match goal with |- infer_int ?t = _ => assert (34 ∉ t ∧ 32 ∉ t) as [H34 H32] end.
  { split; intros H; destruct (Hc _ H) as [H'|?]; first [unfold digit in H'; lia|lia]. }
  unfold infer_int. rewrite (remove_all_none 34) by done. rewrite (remove_all_none 32) by done.
  rewrite !remove_all_app, (groups_remove 44 _ _ ltac:(unfold digit; lia) Hr),
    (remove_all_none 44 g) by (apply not_in_digits; [unfold digit; lia|done]).
  assert (sign = [] ∨ sign = [43] ∨ sign = [45]) as Hsign by tauto.
  rewrite (remove_all_none 44 sign) by (destruct Hsign as [->|[-> | ->]]; rewrite ?not_elem_of_cons; split_and?; first [lia|apply not_elem_of_nil]).
  assert (Forall digit (g ++ ds)) as Hd by (by apply list.Forall_app).
  assert (forallb (λ c, isDigit c || (c =? 43) || (c =? 45)) (sign ++ g ++ ds) = true) as ->.
  { apply forallb_forall. intros x Hx. apply elem_of_list_In, elem_of_app in Hx as [Hx|Hx].
    - destruct Hsign as [->|[-> | ->]]; [by apply elem_of_nil in Hx| |]; apply elem_of_list_singleton in Hx as ->; done.
    - apply (digits_in_inv _ _ Hd), digit_bool in Hx. by rewrite Hx. }
  rewrite py_int_signed; [|by destruct g|done|done].
  destruct Hs as [[[-> | ->] ->]|[-> ->]]; done.
Qed.

Section Lib.
  Context (lib : py_lib) (law : iso_law (iso_date lib) (iso_datetime lib) (iso_time lib)).

  Ltac each_kind H := repeat (apply elem_of_cons in H as [->|H]; [|]); try (by apply elem_of_nil in H).

  Lemma kind_int s w : plain_text (float_read lib) (float_format lib) KInt s w → kind_only lib KInt (CStr s) w.
  Proof using law.
    intros (n & Ht & -> & Hcase). pose proof (int_text_chars _ _ Ht) as [Hc H0].
    pose proof (proj1 (list.Forall_forall _ _) Hc) as Hin.
    destruct s as [|c s']; [done|]. set (s := c :: s') in *.
    assert (digit c ∨ c = 43 ∨ c = 45 ∨ c = 44) as Hhead by (apply Hin; left).
    assert (46 ∉ s) as H46. { intros H. destruct (Hin _ H) as [H'|?]; [unfold digit in H'; lia|lia]. }
    assert (58 ∉ s) as H58. { intros H. destruct (Hin _ H) as [H'|?]; [unfold digit in H'; lia|lia]. }
    assert (infer_datetime lib s = Err ValueError ∧ infer_date lib s = Err ValueError) as [R1 R2].
    { destruct Hcase as [(ds & (Hd0 & Hd & _) & E & Hl)|[(x & Hx & Hx')|(g & rest & E & Hg & Hl)]].
      - destruct (iso_reject lib law s) as [I1 I2]; [right; left; rewrite E; lia|].
        assert (44 ∉ s) as H44 by (rewrite E; apply not_in_digits; [unfold digit; lia|done]).
        split.
        + apply reject_datetime; [done|]. rewrite upto_all by done. apply datetime_key_short. rewrite pattern_length, E. lia.
        + apply reject_date; [done|]. apply date_key_short. rewrite pattern_length, E. lia.
      - apply (reject_head lib law s x); [done|unfold digit; lia|lia].
      - assert (s !! length g = Some 44) as Hat. { rewrite E. rewrite lookup_app_r by lia. by rewrite Nat.sub_diag. }
        destruct (iso_reject lib law s) as [I1 I2].
        { left. apply (not_all_digits _ _ (length g) 44); [done|lia|unfold digit; lia]. }
        assert (rest ≠ []) as Hrest.
        { intros ->. destruct Ht as (sign & g' & r' & ds' & Hg0 & Hg' & Hr & E' & Hs).
          assert (list.last s = Some 44) as L1 by (rewrite E, app_nil_r; apply last_snoc).
          rewrite E' in L1. destruct Hr as [|g2 r2 ds2 Hg2 Lg2 Hr2].
          - rewrite app_nil_r in L1. destruct g' as [|x g'] using rev_ind; [done|].
            rewrite app_assoc, last_snoc in L1. injection L1 as ->. apply list.Forall_app in Hg' as [_ [Hg' _]%list.Forall_cons].
            unfold digit in Hg'. lia.
          - assert (∀ r dd, groups 44 r dd → list.last r = None ∨ ∃ x, list.last r = Some x ∧ digit x) as Hlast.
            { clear. induction 1 as [|g s ds Hg Lg H IH]; [by left|]. right.
              destruct IH as [E|(x & E & Hx)].
              - apply last_None in E. subst s. rewrite app_nil_r. destruct g as [|y g] using rev_ind; [done|]. exists y.
                rewrite app_comm_cons, last_snoc. split; [done|]. by apply list.Forall_app in Hg as [_ [Hg _]%list.Forall_cons].
              - exists x. split; [|done]. rewrite app_comm_cons, last_app, E. done. }
            destruct (Hlast _ _ (groups_more 44 g2 r2 ds2 Hg2 Lg2 Hr2)) as [E2|(x & E2 & Hx)].
            + by apply last_None in E2.
            + rewrite !last_app, E2 in L1. injection L1 as ->. unfold digit in Hx. lia. }
        assert (Z.of_nat (length g) < zlen s - 1) as Hlt.
        { rewrite E, !app_length. cbn [length]. destruct rest; [done|cbn [length]; lia]. }
        split.
        + apply reject_datetime; [done|]. apply datetime_key_comma, pattern_in; [|unfold digit; lia].
          apply (elem_of_list_lookup_2 _ (length g)). rewrite upto_lookup; [done|done|lia].
        + apply reject_date; [done|]. apply date_key_comma, pattern_in; [|unfold digit; lia].
          by apply (elem_of_list_lookup_2 _ (length g)). }
    apply kind_only_text.
    - apply (not_missing s c); [done|unfold digit in Hhead; lia..].
    - done.
    - cbn [infer_value]. by rewrite (infer_int_text n s Ht).
    - intros t Hk. apply earlier_kinds in Hk. exists ValueError. split; [|by left].
      each_kind Hk; cbn [infer_value]; [by rewrite R1|by rewrite R2|by rewrite reject_time].
  Qed.

  (** *** Truth values *)
  Lemma lower_inv x c : 97 <= c <= 122 → lower x = c → x = c ∨ x = c - 32.
  Proof. unfold lower. intros Hc. destruct (_ && _) eqn:E; intros <-; lia. Qed.

  Lemma kind_bool s w : plain_text (float_read lib) (float_format lib) KBool s w → kind_only lib KBool (CStr s) w.
  Proof using law.
    intros Ht.
    assert (∃ c, head s = Some c ∧ c ≠ 110 ∧ c ≠ 78 ∧ c ≠ 35 ∧ ¬ digit c) as (c & Hc & C1 & C2 & C3 & C4).
    { destruct Ht as [[H _]|[H _]]; (destruct s as [|x s]; [done|]); exists x; unfold spells in H; cbn in H;
        injection H as Hx _; (apply lower_inv in Hx; [|lia]); unfold digit; (split; [done|]; lia). }
    assert (58 ∉ s ∧ infer_int s = Err ValueError ∧ infer_value lib (CStr s) KBool = Ok w) as (H58 & Hint & Hok).
    { destruct Ht as [[H ->]|[H ->]]; unfold spells in H; cbn in H.
      - destruct s as [|x1 [|x2 [|x3 [|x4 [|? ?]]]]]; try done. injection H as H1 H2 H3 H4.
        apply lower_inv in H1, H2, H3, H4; try lia.
        destruct H1 as [-> | ->], H2 as [-> | ->], H3 as [-> | ->], H4 as [-> | ->];
          (split; [apply (bool_decide_unpack _); vm_compute; exact I|split; by vm_compute]).
      - destruct s as [|x1 [|x2 [|x3 [|x4 [|x5 [|? ?]]]]]]; try done. injection H as H1 H2 H3 H4 H5.
        apply lower_inv in H1, H2, H3, H4, H5; try lia.
        destruct H1 as [-> | ->], H2 as [-> | ->], H3 as [-> | ->], H4 as [-> | ->], H5 as [-> | ->];
          (split; [apply (bool_decide_unpack _); vm_compute; exact I|split; by vm_compute]). }
    destruct (reject_head lib law s c Hc C4 C2) as [R1 R2].
    apply kind_only_text; [by apply (not_missing s c)|done|done|].
    intros t Hk. apply earlier_kinds in Hk. exists ValueError. split; [|by left].
    each_kind Hk; cbn [infer_value]; [by rewrite R1|by rewrite R2|by rewrite reject_time|by rewrite Hint].
  Qed.
End Lib.
