From Coq Require Import String ZifyBool.
From Verif.Spec Require Import PyTexts.
From Verif.Proof Require Import DictLemmas NpyProofs InferProofs PyInferProofs PyTextProofs PyKinds PyKinds2.
From Verif.Model Require Import PyInfer.
Local Open Scope string_scope.
Local Open Scope list_scope.
Local Open Scope Z_scope.

Lemma count_char_app c (a b : list Z) :
  length (filter (λ x, x = c) (a ++ b)) = (length (filter (λ x, x = c) a) + length (filter (λ x, x = c) b))%nat.
Proof. by rewrite list.filter_app, app_length. Qed.
Lemma count_char_none c (a : list Z) : c ∉ a → length (filter (λ x, x = c) a) = 0%nat.
Proof.
  induction a as [|x a IH]; intros H; [done|]. apply not_elem_of_cons in H as [H1 H2].
  rewrite filter_cons_False by congruence. by apply IH.
Qed.
Lemma pattern_not c s : c ≠ 78 → c ∉ s → c ∉ pattern s.
Proof. intros Hc H Hin. by apply pattern_in_inv in Hin. Qed.

Lemma lower_same s : Forall (λ c, digit c ∨ c = 45 ∨ c = 46) s → map toLower s = s.
Proof.
  induction 1 as [|c s Hc Hs IH]; [done|]. cbn. rewrite IH. f_equal. unfold toLower, digit in *.
  destruct (_ && _) eqn:E; lia.
Qed.

(** the dot of a decimal number *)
Lemma decimal_shape a b s : decimal_text a b s → ∃ p, s = p ++ 46 :: b ∧ 46 ∉ p ∧ p ≠ [] ∧
  Forall (λ c, digit c ∨ c = 45 ∨ c = 46) s ∧ Forall digit b ∧ b ≠ [] ∧
  (p = a ∧ Forall digit a ∨ p = 45 :: a ∧ Forall digit a).
Proof.
  intros (Ha0 & Hb0 & Ha & Hb & Hs).
  assert (∀ l, Forall digit l → Forall (λ c, digit c ∨ c = 45 ∨ c = 46) l) as Hw by (intros l H; eapply list.Forall_impl; [exact H|auto]).
  assert (46 ∉ a) as H46 by (apply not_in_digits; [unfold digit; lia|done]).
  destruct Hs as [-> | ->].
  - exists a. split_and!; try done; [|by left]. apply list.Forall_app. split; [auto|].
    cbn [app]. rewrite list.Forall_cons. auto.
  - exists (45 :: a). split_and!; try done.
    + apply not_elem_of_cons. split; [lia|done].
    + rewrite list.Forall_cons, list.Forall_app. split_and!; auto. cbn [app]. rewrite list.Forall_cons. auto.
    + by right.
Qed.

Section Lib.
  Context (lib : py_lib) (law : iso_law (iso_date lib) (iso_datetime lib) (iso_time lib)).

  Ltac each_kind H := repeat (apply elem_of_cons in H as [->|H]; [|]); try (by apply elem_of_nil in H).

  Lemma infer_float_decimal a b s x : decimal_text a b s → float_read lib s = Some x →
    float_format lib (length b) x = s → infer_float lib s = Ok x.
  Proof.
    intros Ht Hr Hf. destruct (decimal_shape _ _ _ Ht) as (p & E & H46 & Hp0 & Hch & Hb & Hb0 & _).
    pose proof (proj1 (list.Forall_forall _ _) Hch) as Hin.
    assert (∀ c, ¬ digit c → c ≠ 45 → c ≠ 46 → c ∉ s) as Hno by (intros c ? ? ? H; destruct (Hin _ H) as [?|[?|?]]; done).
    assert (34 ∉ s ∧ 44 ∉ s ∧ 69 ∉ s ∧ 101 ∉ s) as (H34 & H44 & H69 & H101) by (split_and!; apply Hno; unfold digit; lia).
    assert (find_char s 46 0 = zlen p) as Hdot by (unfold find_char; rewrite drop_0, E; rewrite index_from_app by done; lia).
    assert (find_char s 44 0 = -1) as Hcomma by (unfold find_char; rewrite drop_0; by apply index_from_none).
    assert (normal_float s = s) as Hn.
    { unfold normal_float. rewrite remove_all_none by done. rewrite Hdot, Hcomma.
      assert ((zlen p =? -1) = false) as -> by lia. assert ((zlen p <? -1) = false) as -> by lia.
      rewrite andb_false_l, !andb_false_r. done. }
    unfold infer_float. rewrite Hn.
    assert (forallb decimals s = true) as ->.
    { apply forallb_forall. intros c Hc%elem_of_list_In. unfold decimals. destruct (Hin _ Hc) as [H|[-> | ->]]; [|done|done].
      apply digit_bool in H. by rewrite H. }
    cbn [negb]. rewrite Hr. rewrite (proj2 (has_false 69 s)), (proj2 (has_false 101 s)) by done. cbn [orb].
    assert (has 46 s = true) as ->. { apply has_spec. rewrite E. apply elem_of_app. right. left. }
    cbn [negb]. rewrite andb_false_r. cbn [res_bind]. rewrite Hdot, Nat2Z.id.
    assert ((length s - length p - 1)%nat = length b) as ->. { rewrite E, app_length. cbn [length]. lia. }
    rewrite Hf. rewrite bool_decide_true; [done|]. by apply lower_same.
  Qed.

  Lemma kind_float s w : plain_text (float_read lib) (float_format lib) KFloat s w → kind_only lib KFloat (CStr s) w.
  Proof using law.
    intros (a & b & x & Ht & Hr & Hf & -> & Hcase).
    destruct (decimal_shape _ _ _ Ht) as (p & E & H46 & Hp0 & Hch & Hb & Hb0 & Hp).
    pose proof (proj1 (list.Forall_forall _ _) Hch) as Hin.
    assert (∀ c, ¬ digit c → c ≠ 45 → c ≠ 46 → c ∉ s) as Hno by (intros c ? ? ? H; destruct (Hin _ H) as [?|[?|?]]; done).
    assert (58 ∉ s ∧ 84 ∉ s ∧ 32 ∉ s ∧ 34 ∉ s ∧ 44 ∉ s) as (H58 & H84 & H32 & H34 & H44) by (split_and!; apply Hno; unfold digit; lia).
    assert (46 ∈ s) as Hdot by (rewrite E; apply elem_of_app; right; left).
    assert (∃ c, head s = Some c ∧ (digit c ∨ c = 45)) as (c & Hc & Dc).
    { rewrite E. destruct p as [|c p]; [done|]. exists c. split; [done|]. destruct Hp as [[<- Ha]|[[= -> _] _]]; [|by right].
      left. by apply list.Forall_cons in Ha as [? _]. }
    assert (infer_datetime lib s = Err ValueError ∧ infer_date lib s = Err ValueError) as [R1 R2].
    { destruct (decide (c = 45)) as [->|Hne]; [apply (reject_head lib law s 45); [done|unfold digit; lia|lia]|].
      destruct Hcase as [Hl|Hl]; [|congruence].
      destruct Hp as [[-> Ha]|[-> _]].
      2:{ rewrite E in Hc. cbn in Hc. congruence. }
      assert (s !! length a = Some 46) as Hat. { rewrite E, lookup_app_r by lia. by rewrite Nat.sub_diag. }
      destruct (iso_reject lib law s) as [I1 I2].
      { destruct (decide (length a = 4%nat)) as [L|L].
        - right. right. exists 46. rewrite <- L. split; [done|]. unfold digit. lia.
        - left. apply (not_all_digits _ _ (length a) 46); [done|lia|unfold digit; lia]. }
      split.
      - apply reject_datetime; [done|].
        assert (cut s = -1) as ->.
        { unfold cut. rewrite (proj2 (has_spec 46 s)) by done. unfold find_char. apply index_from_none. rewrite E.
          intros H. rewrite drop_app_ge in H by lia. apply (f_equal (drop 0)) in E. clear E.
          destruct (11 - length a)%nat as [|k] eqn:Ek; [lia|]. cbn [drop] in H.
          apply elem_of_list_lookup in H as [i Hi]. rewrite lookup_drop in Hi. apply elem_of_list_lookup_2 in Hi.
          apply (digits_in_inv _ _ Hb) in Hi. unfold digit in Hi. lia. }
        set (k := pattern (upto (-1) s)).
        assert (58 ∉ k ∧ 84 ∉ k) as [K1 K2].
        { split; (apply pattern_not; [lia|]); intros H; unfold upto in H; apply elem_of_take in H as (i & Hi & _);
            apply elem_of_list_lookup_2 in Hi; done. }
        unfold datetime_key. rewrite (proj2 (has_false 58 k)), (proj2 (has_false 84 k)) by done. cbn [orb].
        destruct (forallb (λ c, c =? 78) k) eqn:Ek; [|by rewrite andb_false_r].
        assert (length k < 10)%nat as Hk.
        { destruct (decide (length b = 1%nat)) as [Lb|Lb].
          - subst k. rewrite pattern_length, upto_length; [|by left|by intros ->]. cbn. rewrite E, app_length. cbn [length]. lia.
          - exfalso. rewrite forallb_forall in Ek. assert (46 ∈ k) as H46k.
            { subst k. apply pattern_in; [|unfold digit; lia]. apply (elem_of_list_lookup_2 _ (length a)).
              unfold upto. rewrite lookup_take; [done|]. cbn. rewrite E, app_length. cbn [length].
              assert (length b ≠ 0%nat) by (by destruct b). lia. }
            specialize (Ek 46). apply elem_of_list_In in H46k. specialize (Ek H46k). done. }
        assert ((10 <=? length k)%nat = false) as -> by lia. by rewrite andb_false_r, !andb_false_l.
      - apply reject_date; [done|]. unfold date_key.
        rewrite (bool_decide_true (length (filter (λ c, c = 46) (pattern s)) = 1%nat)); [by rewrite andb_false_r|].
        rewrite E. change (46 :: b) with ([46] ++ b). rewrite !pattern_app, !count_char_app.
        rewrite (count_char_none 46 (pattern a)) by (apply pattern_not; [lia|done]).
        rewrite (count_char_none 46 (pattern b)); [done|]. apply pattern_not; [lia|]. apply not_in_digits; [unfold digit; lia|done]. }
    apply kind_only_text.
    - apply (not_missing s c); [done|unfold digit in Dc; lia..].
    - done.
    - cbn [infer_value]. by rewrite (infer_float_decimal a b s x).
    - intros t Hk. apply earlier_kinds in Hk. exists ValueError. split; [|by left].
      each_kind Hk; cbn [infer_value]; [by rewrite R1|by rewrite R2|by rewrite reject_time| |].
      + unfold infer_int. rewrite (remove_all_none 34) by done. rewrite (remove_all_none 32) by done. rewrite (remove_all_none 44) by done.
        assert (forallb (λ c, isDigit c || (c =? 43) || (c =? 45)) s = false) as ->; [|done].
        apply not_true_is_false. rewrite forallb_forall. intros H. apply elem_of_list_In in Hdot. by specialize (H _ Hdot).
      + unfold infer_bool. destruct s as [|y s]; [done|]. injection Hc as ->. cbn [map].
        assert (toLower c = c) as Hlow. { unfold toLower, digit in *. destruct (_ && _) eqn:?; lia. }
        rewrite !bool_decide_false; [done| |]; rewrite Hlow; intros [= ? _]; unfold digit in Dc; lia.
  Qed.

  (** *** Texts *)
  Lemma normal_float_in c s : c ∈ s → c ≠ 34 → c ≠ 46 → c ≠ 44 → c ∈ normal_float s.
  Proof.
    intros H H1 H2 H3. assert (c ∈ remove_all 34 s) as Hr by (apply remove_all_in; split; [lia|done]).
    unfold normal_float. set (r := remove_all 34 s) in *. cbv zeta.
    assert (∀ l, c ∈ l → c ∈ replace_all 44 46 l) as Hrep.
    { intros l Hl. unfold replace_all. apply elem_of_list_In, in_map_iff. exists c. split; [|by apply elem_of_list_In].
      destruct (Z.eqb_spec c 44); [lia|done]. }
    repeat case_match; first [done | apply Hrep; done | apply Hrep, remove_all_in; done | apply remove_all_in; done].
  Qed.

  Lemma kind_str s w : plain_text (float_read lib) (float_format lib) KStr s w → kind_only lib KStr (CStr s) w.
  Proof using law.
    intros (-> & Hm & Hnt & Hnf & c & Hc & Lc & C1 & C2 & C3 & C4). split; [done|].
    unfold letter in Lc. assert (¬ digit c) as Dc by (unfold digit; lia).
    destruct (reject_head lib law s c Hc Dc C3) as [R1 R2].
    assert (c ∈ s) as Hin. { destruct s; [done|]. injection Hc as ->. left. }
    intros t Hk. apply earlier_kinds in Hk.
    each_kind Hk; (rewrite infer_plain by done); cbn [infer_value].
    - rewrite R1. exists ValueError. split; [done|by left].
    - rewrite R2. exists ValueError. split; [done|by left].
    - rewrite (reject_time_head lib law s c Hc Dc C4). exists ValueError. split; [done|by left].
    - exists ValueError. split; [|by left]. unfold infer_int.
      set (r := remove_all 44 _). assert (c ∈ r) as Hr by (unfold r; rewrite !remove_all_in; split_and!; [lia..|done]).
      assert (forallb (λ c, isDigit c || (c =? 43) || (c =? 45)) r = false) as ->; [|done].
      apply not_true_is_false. rewrite forallb_forall. intros H. apply elem_of_list_In in Hr. specialize (H _ Hr).
      unfold isDigit in H. lia.
    - exists ValueError. split; [|by left]. unfold infer_bool.
      rewrite (bool_decide_false (map toLower s = _)) by exact Hnt. by rewrite (bool_decide_false (map toLower s = _)) by exact Hnf.
    - exists TypeError. split; [|by right]. unfold infer_float.
      assert (forallb decimals (normal_float s) = false) as ->; [|done].
      apply not_true_is_false. rewrite forallb_forall. intros H.
      assert (In c (normal_float s)) as Hc' by (apply elem_of_list_In, normal_float_in; [done|lia..]).
      specialize (H _ Hc'). unfold decimals, isDigit in H. lia.
  Qed.

  (** *** Moments *)
  Lemma kind_datetime s w : plain_text (float_read lib) (float_format lib) KDateTime s w → kind_only lib KDateTime (CStr s) w.
  Proof using law.
    intros (d & us & day & rest & Hday & Hd & -> & -> & Hrest).
    assert (∃ c, head (day ++ rest) = Some c ∧ digit c) as (c & Hc & Dc).
    { destruct Hday as (y & m & n & ((Hy0 & Dy & Vy) & Ly) & _ & _ & ->). destruct y as [|c y]; [done|].
      exists c. split; [done|]. by apply list.Forall_cons in Dy as [? _]. }
    unfold digit in Dc. apply kind_only_text.
    - by apply (not_missing _ c); [|lia|lia|lia].
    - done.
    - cbn [infer_value]. unfold infer_datetime.
      assert (iso_datetime lib (day ++ rest) = Some (d, us)) as ->; [|done].
      destruct Hrest as [[-> ->]|(m & t & -> & Hm & Ht)].
      + rewrite app_nil_r. by apply (law_day _ _ _ law).
      + by apply (law_moment _ _ _ law).
    - intros t Ht. apply earlier_kinds in Ht. by apply elem_of_nil in Ht.
  Qed.

  Lemma plain_kind T s w : plain_text (float_read lib) (float_format lib) T s w → T ∈ types ∧ kind_only lib T (CStr s) w.
  Proof using law.
    intros H. destruct T; [done|..]; (split; [apply (bool_decide_unpack _); vm_compute; exact I|]).
    - by apply kind_bool. - by apply kind_int. - by apply kind_float. - by apply kind_str.
    - by apply kind_date. - by apply kind_time. - by apply kind_datetime.
  Qed.

  Lemma guess_plain T vs ws : plain_column (float_read lib) (float_format lib) T vs ws → T ≠ KNone → guess lib vs = Ok ws.
  Proof using law.
    intros H HT. apply (guess_uniform lib T); [destruct T; first [done|apply (bool_decide_unpack _); vm_compute; exact I]|].
    eapply list.Forall2_impl; [exact H|]. intros v w [?|(s & -> & Hs)]; [by left|right]. by apply plain_kind in Hs as [_ ?].
  Qed.
End Lib.
