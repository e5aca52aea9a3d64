From Coq Require Import String ZifyBool.
From Verif.Spec Require Import PyTexts.
From Verif.Proof Require Import DictLemmas NpyProofs InferProofs PyInferProofs PyTextProofs.
From Verif.Model Require Import PyInfer.
Local Open Scope string_scope.
Local Open Scope list_scope.
Local Open Scope Z_scope.

Lemma earlier_kinds T t : earlier T t → t ∈ match T with
  | KDateTime => [] | KDate => [KDateTime] | KTime => [KDateTime; KDate] | KInt => [KDateTime; KDate; KTime]
  | KBool => [KDateTime; KDate; KTime; KInt] | KFloat => [KDateTime; KDate; KTime; KInt; KBool]
  | KStr => [KDateTime; KDate; KTime; KInt; KBool; KFloat] | KNone => [] end.
Proof.
  intros (i & j & Hi & Hj & Hij).
  do 7 (destruct j as [|j]; [cbn in Hj; injection Hj as <-;
    do 7 (destruct i as [|i]; [first [lia | cbn in Hi; injection Hi as <-; apply (bool_decide_unpack _); vm_compute; exact I]|]); lia|]).
  done.
Qed.

Lemma not_missing s c : head s = Some c → c ≠ 110 → c ≠ 78 → c ≠ 35 → s ∉ missing_texts.
Proof.
  intros Hs H1 H2 H3 Hin. unfold missing_texts in Hin. cbn in Hin.
  repeat (apply elem_of_cons in Hin as [->|Hin]; [cbn in Hs; try injection Hs as <-; done|]). by apply elem_of_nil in Hin.
Qed.

(** ** Numbers *)
Lemma py_int_number n ds : number n ds → py_int ds = Ok n.
Proof.
  intros (Hne & Hd & Hv). destruct ds as [|c ds]; [done|]. unfold py_int.
  pose proof (proj1 (list.Forall_cons _ _ _) Hd) as [Hc _]. unfold digit in Hc.
  assert ((c =? 43) = false) as -> by lia. assert ((c =? 45) = false) as -> by lia.
  rewrite (proj2 (all_digits_spec _) Hd). cbn [length]. assert ((0 <? Z.of_nat (S (length ds))) = true) as -> by lia.
  cbn [andb]. by rewrite Hv.
Qed.

Lemma split_on_sep c a b : c ∉ a → split_on c (a ++ c :: b) = a :: split_on c b.
Proof.
  induction a as [|x a IH]; intros H; cbn [app split_on]; [by rewrite Z.eqb_refl|].
  apply not_elem_of_cons in H as [H1 H2]. destruct (Z.eqb_spec x c); [congruence|]. by rewrite IH.
Qed.

Lemma new_date_ok d : python_date d → new_date (yy d) (mm d) (dd d) = Ok d.
Proof.
  intros (Hy & Hv). destruct d as [y m n]. destruct Hv as (Hm & Hd). cbn [yy mm dd] in *. unfold new_date.
  rewrite (proj2 (Z.leb_le 1 y)), (proj2 (Z.leb_le y 9999)), (proj2 (Z.leb_le 1 m)), (proj2 (Z.leb_le m 12)),
    (proj2 (Z.leb_le 1 n)), (proj2 (Z.leb_le n (month_days y m))) by lia. done.
Qed.

Lemma sep_not_digit sep : date_separator sep → ¬ digit sep.
Proof. unfold date_separator, digit. lia. Qed.

Section Lib.
  Context (lib : py_lib) (law : iso_law (iso_date lib) (iso_datetime lib) (iso_time lib)).

  Lemma infer_plain s t : s ∉ missing_texts → t ≠ KStr → infer lib (CStr s) t = infer_value lib (CStr s) t.
  Proof.
    intros H Ht. change missing_texts with none_texts in H. unfold infer.
    rewrite (bool_decide_false (s ∈ none_texts)) by done. by destruct t.
  Qed.

  (** [kind_only] of a text *)
  Lemma kind_only_text T s w : s ∉ missing_texts → T ≠ KStr → infer_value lib (CStr s) T = Ok w →
    (∀ t, earlier T t → ∃ e, infer_value lib (CStr s) t = Err e ∧ refused e) → kind_only lib T (CStr s) w.
  Proof.
    intros Hm HT Hw Hb. split; [by rewrite infer_plain|]. intros t Ht.
    rewrite infer_plain; [by apply Hb|done|]. intros ->. apply earlier_kinds in Ht. destruct T;
    repeat (apply elem_of_cons in Ht as [Ht|Ht]; [done|]); by apply elem_of_nil in Ht.
  Qed.

  Lemma value_error : refused ValueError. Proof. by left. Qed.

  (** *** Dates *)
  Lemma brief_date_read day_first sep d s : brief_date day_first sep d s → date_separator sep → python_date d →
    dget date_formats (pattern s) = Some (DateSplit sep day_first) ∧ read_date (DateSplit sep day_first) s = Ok d.
  Proof.
    intros (y & m & n & (Hy & Ly) & Hm & Hn & Lm & Ln & ->) Hsep Hd.
    destruct Hy as (Hy0 & Dy & Vy). destruct Hm as (Hm0 & Dm & Vm). destruct Hn as (Hn0 & Dn & Vn).
    pose proof (sep_not_digit _ Hsep) as Hs.
    assert (sep ∉ y ∧ sep ∉ m ∧ sep ∉ n) as (Sy & Sm & Sn) by (split_and!; by apply not_in_digits).
    assert (py_int y = Ok (yy d) ∧ py_int m = Ok (mm d) ∧ py_int n = Ok (dd d)) as (Py & Pm & Pn)
      by (split_and!; by apply py_int_number).
    split.
    - assert (length m = 1%nat ∨ length m = 2%nat) as Lm' by (destruct m as [|? [|? [|? ?]]]; cbn [length] in *; first [done|lia]).
      assert (length n = 1%nat ∨ length n = 2%nat) as Ln' by (destruct n as [|? [|? [|? ?]]]; cbn [length] in *; first [done|lia]).
      destruct day_first; rewrite !pattern_app, pattern_other, !pattern_digits, Ly by done;
        (destruct Lm' as [-> | ->], Ln' as [-> | ->]; destruct Hsep as [-> |[-> |[-> | ->]]]; by vm_compute).
    - destruct day_first; cbn [read_date app].
      + rewrite !split_on_sep, split_on_none by done. cbn [map rev app]. rewrite Py, Pm, Pn. cbn. by apply new_date_ok.
      + rewrite !split_on_sep, split_on_none by done. cbn [map]. rewrite Py, Pm, Pn. cbn. by apply new_date_ok.
  Qed.

  Lemma upto_lookup s i : Z.of_nat i < zlen s - 1 → (i < 11)%nat → upto (cut s) s !! i = s !! i.
  Proof.
    intros H1 H2. unfold upto. apply lookup_take. destruct (cut_range s) as [->|[->|?]]; [|cbn; lia|];
    match goal with |- context [?a <? 0] => destruct (a <? 0) eqn:?; lia end.
  Qed.
  Lemma upto_all s : 46 ∉ s → 44 ∉ s → upto (cut s) s = s.
  Proof.
    intros H1 H2. unfold cut. rewrite (proj2 (has_false _ _) H1), (proj2 (has_false _ _) H2). unfold upto.
    destruct (zlen s <? 0) eqn:?; [lia|]. rewrite Nat2Z.id. apply firstn_all.
  Qed.
  Lemma datetime_key_ten k c : (length k <= 10)%nat → c ∈ k → c ≠ 78 → datetime_key k = false.
  Proof.
    intros Hl Hin Hc. unfold datetime_key. assert ((10 <? length k)%nat = false) as -> by lia.
    assert (forallb (λ c, c =? 78) k = false) as ->.
    { apply not_true_is_false. rewrite forallb_forall. intros H. apply elem_of_list_In in Hin. specialize (H _ Hin). lia. }
    cbn [orb]. by rewrite andb_false_r.
  Qed.
  Lemma datetime_key_third k : k !! 2%nat = Some 58 → datetime_key k = false.
  Proof.
    intros H. unfold datetime_key. rewrite (bool_decide_true (k !! 2%nat = Some 58)) by done. cbn [negb].
    by rewrite andb_false_r.
  Qed.

  Lemma not_all_digits (s : list Z) k i c : s !! i = Some c → (i < k)%nat → ¬ digit c → ¬ Forall digit (take k s).
  Proof.
    intros Hi Hk Hc HF. rewrite list.Forall_forall in HF. apply Hc, HF. apply elem_of_list_lookup. exists i.
    by rewrite lookup_take.
  Qed.

  Lemma kind_date s w : plain_text (float_read lib) (float_format lib) KDate s w → kind_only lib KDate (CStr s) w.
  Proof using law.
    intros (d & day_first & sep & Ht & Hsep & Hd & -> & Hiso).
    destruct (brief_date_read _ _ _ _ Ht Hsep Hd) as [Hp Hr].
    pose proof (sep_not_digit _ Hsep) as Hs.
    assert (iso_date lib s = None ∧ iso_datetime lib s = None ∧ (length s <= 10)%nat ∧ sep ∈ s ∧
            (Forall (λ c, digit c ∨ c = sep) s) ∧ ∃ c, head s = Some c ∧ digit c) as (I1 & I2 & Hl & Hin & Hchars & (c & Hc & Dc)).
    { destruct Ht as (y & m & n & ((Hy0 & Dy & Vy) & Ly) & (Hm0 & Dm & Vm) & (Hn0 & Dn & Vn) & Lm & Ln & ->).
      assert (∀ l, Forall digit l → Forall (λ c, digit c ∨ c = sep) l) as Hw by (intros l H; eapply list.Forall_impl; [exact H|auto]).
      apply and_assoc. split.
      - apply iso_reject; [done|]. destruct day_first.
        + left. apply (not_all_digits _ 4 (length n) sep); [|destruct n as [|? [|? [|? ?]]]; cbn [length] in *; lia|done].
          rewrite lookup_app_r by lia. by rewrite Nat.sub_diag.
        + right. right. exists sep. rewrite lookup_app_r by lia. rewrite Ly. split; [done|].
          split; [by apply Hiso|]. split; [done|]. unfold date_separator in Hsep. lia.
      - destruct day_first.
        + split; [rewrite !app_length; cbn [length]; lia|]. split; [set_solver|]. split.
          { rewrite !list.Forall_app, !list.Forall_cons, !list.Forall_nil. by auto 10. }
          destruct n as [|x n]; [done|]. exists x. split; [done|]. by apply list.Forall_cons in Dn as [? _].
        + split; [rewrite !app_length; cbn [length]; lia|]. split; [set_solver|]. split.
          { rewrite !list.Forall_app, !list.Forall_cons, !list.Forall_nil. by auto 10. }
          destruct y as [|x y]; [done|]. exists x. split; [done|]. by apply list.Forall_cons in Dy as [? _]. }
    unfold digit in Dc. apply kind_only_text.
    - by apply (not_missing s c); [|lia|lia|lia].
    - done.
    - cbn [infer_value]. unfold infer_date. by rewrite I1, Hp, Hr.
    - intros t Ht'. apply earlier_kinds, elem_of_list_singleton in Ht' as ->. exists ValueError. split; [|apply value_error].
      cbn [infer_value]. rewrite reject_datetime; [done|done|].
      rewrite list.Forall_forall in Hchars.
      assert (44 ∉ s) as H44. { intros H. destruct (Hchars _ H) as [H'|H']; [unfold digit in H'; lia|unfold date_separator in Hsep; lia]. }
      destruct (decide (sep = 46)) as [->|Hne].
      + apply datetime_key_short. rewrite pattern_length.
        assert (cut s = -1) as ->.
        { unfold cut. rewrite (proj2 (has_spec 46 s)) by done. unfold find_char. by rewrite drop_ge by lia. }
        rewrite upto_length; [cbn; lia|by left|]. intros ->. by apply elem_of_nil in Hin.
      + assert (46 ∉ s) as H46. { intros H. destruct (Hchars _ H) as [H'|H']; [unfold digit in H'; lia|congruence]. }
        rewrite upto_all by done. apply (datetime_key_ten _ sep); [by rewrite pattern_length|by apply pattern_in|].
        unfold date_separator in Hsep. lia.
  Qed.

  (** *** Times *)
  Lemma clock_shape us s : clock us s → (5 <= length s)%nat ∧ s !! 2%nat = Some 58 ∧ ∃ c, head s = Some c ∧ digit c.
  Proof.
    assert (∀ h hs rest, number_of 2 h hs → (2 <= length rest)%nat → (5 <= length (hs ++ [58%Z] ++ rest))%nat ∧
      (hs ++ [58] ++ rest) !! 2%nat = Some 58 ∧ ∃ c, head (hs ++ [58] ++ rest) = Some c ∧ digit c) as Hg.
    { intros h hs rest ((H0 & D & V) & L) Hr. destruct hs as [|a [|b [|? ?]]]; cbn [length] in L; try lia.
      split; [rewrite !app_length; cbn [length]; lia|]. split; [done|]. exists a. split; [done|].
      by apply list.Forall_cons in D as [? _]. }
    intros [h m hs ms H1 H2|h m x hs ms ss H1 H2 H3|h m x f hs ms ss fs H1 H2 H3 H4|h m x f hs ms ss fs H1 H2 H3 H4];
      (eapply Hg; [exact H1|]; destruct H2 as [_ L2]; rewrite ?app_length; lia).
  Qed.

  Lemma kind_time s w : plain_text (float_read lib) (float_format lib) KTime s w → kind_only lib KTime (CStr s) w.
  Proof using law.
    intros (us & Hw & ->). destruct (clock_shape us s (proj1 Hw)) as (Hl & H2 & c & Hc & Dc).
    assert (iso_date lib s = None ∧ iso_datetime lib s = None) as [I1 I2].
    { apply iso_reject; [done|]. left. apply (not_all_digits _ 4 2 58); [done|lia|unfold digit; lia]. }
    unfold digit in Dc. apply kind_only_text.
    - by apply (not_missing s c); [|lia|lia|lia].
    - done.
    - cbn [infer_value]. unfold infer_time. rewrite (proj2 (has_spec 58 s)) by (eapply elem_of_list_lookup_2; done).
      by rewrite (law_time _ _ _ law _ _ Hw).
    - intros t Ht. apply earlier_kinds in Ht. exists ValueError. split; [|apply value_error].
      apply elem_of_cons in Ht as [->|Ht]; cbn [infer_value].
      + rewrite reject_datetime; [done|done|]. apply datetime_key_third. unfold pattern.
        change (map ?f ?l) with (f <$> l). rewrite list_lookup_fmap, upto_lookup by lia. by rewrite H2.
      + apply elem_of_list_singleton in Ht as ->. cbn [infer_value]. rewrite reject_date; [done|done|].
        apply date_key_colon, pattern_in; [by eapply elem_of_list_lookup_2|unfold digit; lia].
  Qed.
End Lib.
