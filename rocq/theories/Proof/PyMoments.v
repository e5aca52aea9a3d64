From Coq Require Import String ZifyBool.
From Verif.Spec Require Import PyTexts.
From Verif.Proof Require Import DictLemmas NpyProofs InferProofs PyInferProofs PyTextProofs PyKinds PyKinds2 PyKinds3.
From Verif.Model Require Import PyInfer.
Local Open Scope string_scope.
Local Open Scope list_scope.
Local Open Scope Z_scope.

(** ** Replacements *)
Lemma replace_all_none a b s : a ∉ s → replace_all a b s = s.
Proof.
  induction s as [|x s IH]; intros H; [done|]. apply not_elem_of_cons in H as [H1 H2]. cbn.
  destruct (Z.eqb_spec x a); [congruence|]. f_equal. by apply IH.
Qed.
Lemma replace_all_app a b s t : replace_all a b (s ++ t) = replace_all a b s ++ replace_all a b t.
Proof. apply map_app. Qed.
Lemma replace_n_none a b n s : a ∉ s → replace_n a b n s = s.
Proof.
  revert n. induction s as [|x s IH]; intros n H; [by destruct n|]. apply not_elem_of_cons in H as [H1 H2].
  destruct n; [done|]. cbn. destruct (Z.eqb_spec x a); [congruence|]. by rewrite IH.
Qed.
Lemma replace_n_same a n s : replace_n a a n s = s.
Proof.
  revert n. induction s as [|x s IH]; intros n; [by destruct n|]. destruct n; [done|]. cbn.
  destruct (Z.eqb_spec x a) as [->|]; by rewrite IH.
Qed.
Lemma replace_n_at a b n p q : a ∉ p → replace_n a b (S n) (p ++ a :: q) = p ++ b :: replace_n a b n q.
Proof.
  induction p as [|x p IH]; intros H; cbn [app replace_n]; [by rewrite Z.eqb_refl|].
  apply not_elem_of_cons in H as [H1 H2]. destruct (Z.eqb_spec x a); [congruence|]. f_equal. by apply IH.
Qed.
Lemma replace_n_0 a b s : replace_n a b 0 s = s.
Proof. by destruct s. Qed.

(** ** Fractions *)
Lemma digits_pad ds k : digits_value (replicate k 48 ++ ds) = digits_value ds.
Proof.
  induction k as [|k IH]; [done|]. cbn [replicate app]. rewrite digits_cons, IH. lia.
Qed.
Lemma milli_all : forallb (λ f,
  (qtrunc (this (fl (this (fl (inject_Z f / inject_Z 1000)) * inject_Z 1000000))) =? f * 1000)
  && (length (micro_text (f * 1000)) =? 6)%nat && all_digits (micro_text (f * 1000))
  && (digits_value (micro_text (f * 1000)) =? f * 1000)) (map Z.of_nat (seq 0 1000)) = true.
Proof. by vm_compute. Qed.
Lemma milli_one f : 0 <= f < 1000 →
  qtrunc (this (fl (this (fl (inject_Z f / inject_Z 1000)) * inject_Z 1000000))) = f * 1000 ∧
  length (micro_text (f * 1000)) = 6%nat ∧ all_digits (micro_text (f * 1000)) = true ∧ digits_value (micro_text (f * 1000)) = f * 1000.
Proof.
  intros B. assert (In f (map Z.of_nat (seq 0 1000))) as Hin.
  { apply in_map_iff. exists (Z.to_nat f). split; [apply Z2Nat.id; lia|]. apply in_seq. lia. }
  pose proof (proj1 (forallb_forall _ _) milli_all f Hin) as M. cbv beta in M. clear Hin B.
  apply andb_true_iff in M as [M M4]. apply andb_true_iff in M as [M M3]. apply andb_true_iff in M as [M1 M2].
  apply Z.eqb_eq in M1. apply Z.eqb_eq in M4. apply Nat.eqb_eq in M2. exact (conj M1 (conj M2 (conj M3 M4))).
Qed.
Lemma milli f fs : number_of 3 f fs → micro fs = f * 1000 ∧ number_of 6 (f * 1000) (micro_text (f * 1000)).
Proof.
  intros H. destruct (milli_one f (number_bound _ _ 3 (proj1 H) (proj2 H))) as (M1 & M2 & M3 & M4).
  destruct H as ((_ & _ & V) & L). split.
  - unfold micro. rewrite V, L. change (10 ^ Z.of_nat 3) with 1000. exact M1.
  - split; [|exact M2]. split; [intros E; rewrite E in M2; discriminate M2|]. split; [by apply all_digits_spec|exact M4].
Qed.

Definition clock_char (c : Z) : Prop := digit c ∨ c = 58 ∨ c = 46.
Lemma clock_chars us t : clock us t → Forall clock_char t.
Proof.
  assert (∀ k n ds, number_of k n ds → Forall clock_char ds) as Hw.
  { intros k n ds ((_ & D & _) & _). eapply list.Forall_impl; [exact D|]. by left. }
  intros H. destruct H; rewrite ?list.Forall_app, ?list.Forall_cons, ?list.Forall_nil; unfold clock_char at 1; 
    repeat split; eauto; unfold clock_char; auto.
Qed.
Lemma not_clock c t us : clock us t → ¬ digit c → c ≠ 58 → c ≠ 46 → c ∉ t.
Proof.
  intros H%clock_chars H1 H2 H3 Hin. rewrite list.Forall_forall in H. destruct (H _ Hin) as [?|[?|?]]; done.
Qed.

(** a time without fraction *)
Inductive base_clock : Z → list Z → Prop :=
| base_hm h m hs ms : number_of 2 h hs → number_of 2 m ms → base_clock ((h * 60 + m) * 60000000) (hs ++ [58] ++ ms)
| base_hms h m s hs ms ss : number_of 2 h hs → number_of 2 m ms → number_of 2 s ss →
    base_clock (((h * 60 + m) * 60 + s) * 1000000) (hs ++ [58] ++ ms ++ [58] ++ ss).
Lemma base_is_clock us t : base_clock us t → clock us t ∧ 46 ∉ t.
Proof.
  assert (∀ k n ds, number_of k n ds → 46 ∉ ds) as Hw by (intros k n ds ((_ & D & _) & _); apply not_in_digits; [unfold digit; lia|done]).
  intros H. destruct H as [h m hs ms H1 H2|h m s hs ms ss H1 H2 H3]; (split; [by constructor|]);
  rewrite !not_elem_of_app, ?not_elem_of_cons; split_and?; eauto; try lia; apply not_elem_of_nil.
Qed.
Lemma clock_cases us t : clock us t → length t ≠ 15%nat → base_clock us t ∨
  ∃ b f fs, base_clock (us - f * 1000) b ∧ length b = 8%nat ∧ number_of 3 f fs ∧ t = b ++ [46] ++ fs.
Proof.
  intros H L. destruct H as [h m hs ms H1 H2|h m s hs ms ss H1 H2 H3|h m s f hs ms ss fs H1 H2 H3 H4|h m s f hs ms ss fs H1 H2 H3 H4].
  - left. by constructor.
  - left. by constructor.
  - right. exists (hs ++ [58] ++ ms ++ [58] ++ ss), f, fs. split.
    { replace (_ - f * 1000) with (((h * 60 + m) * 60 + s) * 1000000) by lia. by constructor. }
    split; [by rewrite !app_length, (proj2 H1), (proj2 H2), (proj2 H3)|]. split; [done|]. by rewrite <- !app_assoc.
  - destruct L. by rewrite !app_length, (proj2 H1), (proj2 H2), (proj2 H3), (proj2 H4).
Qed.

Lemma rev_index (p fs : list Z) : 46 ∉ fs → index_from 46 (rev (p ++ [46] ++ fs)) 0 = zlen fs.
Proof.
  intros H. rewrite !rev_app_distr. cbn [rev app]. rewrite <- app_assoc. cbn [app]. rewrite index_from_app; [rewrite rev_length; lia|].
  intros Hin. apply H. apply elem_of_list_In in Hin. apply elem_of_list_In. by apply in_rev.
Qed.

Section Lib.
  Context (lib : py_lib) (law : iso_law (iso_date lib) (iso_datetime lib) (iso_time lib)).

  Lemma fix_none s : 46 ∉ s → fix_fraction lib s = Ok s.
  Proof.
    intros H. unfold fix_fraction. rewrite index_from_none; [done|]. intros Hin. apply H.
    apply elem_of_list_In in Hin. apply elem_of_list_In. by apply in_rev.
  Qed.
  Lemma fix_milli p f fs : number_of 3 f fs → fix_fraction lib (p ++ [46] ++ fs) = Ok (p ++ [46] ++ micro_text (f * 1000)).
  Proof.
    intros H. destruct (milli f fs H) as [M _]. destruct H as ((H0 & D & V) & L).
    unfold fix_fraction. rewrite rev_index by (apply not_in_digits; [unfold digit; lia|done]). rewrite L.
    change (0 <? Z.of_nat 3) with true. change (Z.of_nat 3 <? 10) with true. cbn [andb].
    assert ((length (p ++ [46%Z] ++ fs) - Z.to_nat (Z.of_nat 3))%nat = length (p ++ [46%Z])) as ->.
    { rewrite !app_length. cbn [length]. lia. }
    rewrite app_assoc, drop_app, take_app. rewrite (proj2 (all_digits_spec fs) D), M. cbn [res_map].
    by rewrite <- app_assoc.
  Qed.

  (** the fraction of a time *)
  Lemma fix_time p us t : 46 ∉ p → wall_clock us t → length t ≠ 15%nat →
    ∃ t', fix_fraction lib (p ++ t) = Ok (p ++ t') ∧ wall_clock us t'.
  Proof.
    intros Hp [Hc Hin] L. destruct (clock_cases us t Hc L) as [Hb|(b & f & fs & Hb & Lb & Hf & ->)].
    - exists t. split; [|done]. apply fix_none. apply not_elem_of_app. split; [done|]. by apply (base_is_clock us).
    - exists (b ++ [46] ++ micro_text (f * 1000)). rewrite (app_assoc p b ([46] ++ fs)), (fix_milli _ f) by done.
      split; [by rewrite <- app_assoc|]. destruct (milli f fs Hf) as [_ M]. split.
      + inversion Hb as [h m hs ms H1 H2 E1 E2|h m s hs ms ss H1 H2 H3 E1 E2].
        { exfalso. rewrite <- E2, !app_length, (proj2 H1), (proj2 H2) in Lb. done. }
        rewrite <- !app_assoc. replace us with (((h * 60 + m) * 60 + s) * 1000000 + f * 1000) by lia. by constructor.
      + destruct Hin as (B1 & B2 & B3).
        assert (∀ i x, (i + 2 <= 8)%nat → take 2 (drop i (b ++ x)) = take 2 (drop i b)) as Hsame.
        { intros i x Hi. rewrite drop_app_le by lia. rewrite take_app_le; [done|]. rewrite drop_length. lia. }
        assert (∀ x, take 2 (b ++ x) = take 2 b) as Hs0 by (intros x; exact (Hsame 0%nat x ltac:(lia))).
        rewrite Hs0 in B1. rewrite Hsame in B2 by lia. rewrite Hsame in B3 by lia. split; [by rewrite Hs0|]. split; by rewrite Hsame by lia.
  Qed.

  (** what is cut off *)
  Lemma upto_core (date : list Z) c us t : length date = 10%nat → 46 ∉ date → 44 ∉ date → time_mark c → clock us t →
    length t ≠ 15%nat → ∃ us' b, base_clock us' b ∧ upto (cut (date ++ [c] ++ t)) (date ++ [c] ++ t) = date ++ [c] ++ b.
  Proof.
    intros Ld H46 H44 Hc Ht L. unfold time_mark in Hc.
    assert (44 ∉ date ++ [c] ++ t) as H44s.
    { rewrite !not_elem_of_app, not_elem_of_cons. split_and!; [done|lia|apply not_elem_of_nil|].
      eapply not_clock; [exact Ht|unfold digit; lia|lia|lia]. }
    destruct (clock_cases us t Ht L) as [Hb|(b & f & fs & Hb & Lb & Hf & ->)].
    - exists us, t. split; [done|]. apply upto_all; [|done].
      rewrite !not_elem_of_app, not_elem_of_cons. split_and!; [done|lia|apply not_elem_of_nil|by apply (base_is_clock us)].
    - eexists _, b. split; [exact Hb|]. unfold cut. rewrite (proj2 (has_spec 46 _)).
      2:{ rewrite !elem_of_app, !elem_of_list_singleton. tauto. }
      assert (find_char (date ++ [c] ++ b ++ [46] ++ fs) 46 11 = 19) as ->.
      { unfold find_char. rewrite app_assoc. rewrite drop_app_alt by (rewrite app_length, Ld; done).
        cbn [app]. rewrite index_from_app by (by apply (base_is_clock _ _ Hb)). rewrite Lb. done. }
      unfold upto. change (19 <? 0) with false. cbn iota. rewrite !app_assoc.
      rewrite <- (app_assoc ((date ++ [c]) ++ b)). apply take_app_alt. rewrite !app_length, Ld, Lb. done.
  Qed.

  Lemma pattern_base us b : base_clock us b →
    pattern b = [78; 78; 58; 78; 78] ∨ pattern b = [78; 78; 58; 78; 78; 58; 78; 78].
  Proof.
    intros H. destruct H as [h m hs ms ((_ & D1 & _) & L1) ((_ & D2 & _) & L2)|
      h m s hs ms ss ((_ & D1 & _) & L1) ((_ & D2 & _) & L2) ((_ & D3 & _) & L3)]; [left|right];
      rewrite !pattern_app, !(pattern_other 58) by (unfold digit; lia); rewrite !pattern_digits by done; rewrite ?L1, ?L2, ?L3; done.
  Qed.

  Lemma moment_format (day_first : bool) sep y m n c us b : length y = 4%nat → length m = 2%nat → length n = 2%nat →
    Forall digit y → Forall digit m → Forall digit n → date_separator sep → sep ≠ 46 → time_mark c → base_clock us b →
    ∃ ymd T, dget datetime_formats (pattern ((if day_first then n ++ [sep] ++ m ++ [sep] ++ y else y ++ [sep] ++ m ++ [sep] ++ n) ++ [c] ++ b))
      = Some (Moment ymd T 0 day_first) ∧
      (if day_first then ymd = Some 45 ∨ ymd = Some 47 else ymd = Some sep ∨ sep = 45) ∧ (T = None ∨ T = Some 32).
  Proof.
    intros Ly Lm Ln Dy Dm Dn Hsep H46 Hc Hb. pose proof (sep_not_digit _ Hsep) as Hs.
    assert (¬ digit c) as Hcd by (unfold time_mark, digit in *; lia).
    destruct day_first; rewrite !pattern_app, !(pattern_other c), !(pattern_other sep), (pattern_digits y), (pattern_digits m), (pattern_digits n) by done; rewrite Ly, Lm, Ln;
      destruct (pattern_base _ _ Hb) as [-> | ->]; destruct Hc as [-> | ->]; destruct Hsep as [-> |[-> |[-> | ->]]]; try done;
      (eexists _, _; split; [by vm_compute|]; split; auto).
  Qed.

  Lemma digits_no c s : Forall digit s → ¬ digit c → c ∉ s.
  Proof. intros. by apply not_in_digits. Qed.

  Lemma full_moment_read day_first sep d us s : full_moment day_first sep d us s → sep ≠ 46 → zlen s ≠ 26 →
    infer_datetime lib s = Ok (d, us).
  Proof using law.
    intros (y & m & n & c & t & Hy & Hm & Hn & Hd & Hsep & Hc & Ht & ->) H46 HL.
    pose proof Hy as ((_ & Dy & _) & Ly). pose proof Hm as ((_ & Dm & _) & Lm). pose proof Hn as ((_ & Dn & _) & Ln).
    pose proof (sep_not_digit _ Hsep) as Hs.
    assert (length t ≠ 15%nat) as L15.
    { intros E. apply HL. destruct day_first; rewrite !app_length, Ly, Lm, Ln, E; done. }
    assert (∀ c' t', time_mark c' → wall_clock us t' → iso_datetime lib ((y ++ [45] ++ m ++ [45] ++ n) ++ [c'] ++ t') = Some (d, us)) as Hiso.
    { intros c' t' Hc' Ht'. apply (law_moment _ _ _ law); [by exists y, m, n|done|done|done]. }
    assert (∀ x z, ¬ digit z → z ≠ x → z ∉ y ++ [x] ++ m ++ [x] ++ n) as Hnot.
    { intros x z Hz Hx. rewrite !not_elem_of_app, !not_elem_of_cons. split_and!; try done; first [apply not_elem_of_nil|by apply digits_no]. }
    assert (∀ x z, ¬ digit z → z ≠ x → z ∉ n ++ [x] ++ m ++ [x] ++ y) as Hnot'.
    { intros x z Hz Hx. rewrite !not_elem_of_app, !not_elem_of_cons. split_and!; try done; first [apply not_elem_of_nil|by apply digits_no]. }
    set (date := if day_first then n ++ [sep] ++ m ++ [sep] ++ y else y ++ [sep] ++ m ++ [sep] ++ n).
    unfold infer_datetime. destruct (iso_datetime lib (date ++ [c] ++ t)) as [v|] eqn:E.
    { destruct day_first; subst date.
      - exfalso. destruct (iso_reject lib law ((n ++ [sep] ++ m ++ [sep] ++ y) ++ [c] ++ t)) as [_ E']; [|congruence].
        left. apply (not_all_digits _ _ 2 sep); [|lia|done]. rewrite !lookup_app_l by (rewrite ?app_length; cbn [length]; lia).
        rewrite lookup_app_r by lia. rewrite Ln. done.
      - destruct (decide (sep = 45)) as [->|Hne]; [rewrite Hiso in E by done; by injection E as <-|].
        exfalso. destruct (iso_reject lib law ((y ++ [sep] ++ m ++ [sep] ++ n) ++ [c] ++ t)) as [_ E']; [|congruence].
        right. right. exists sep. rewrite lookup_app_l by (rewrite ?app_length; cbn [length]; lia).
        rewrite lookup_app_r by lia. rewrite Ly. split; [done|]. split; [done|]. split; [done|]. unfold date_separator in Hsep. lia. }
    fold (cut (date ++ [c] ++ t)).
    destruct (upto_core date c us t) as (us' & b & Hb & ->).
    { subst date. destruct day_first; rewrite !app_length, Ly, Lm, Ln; done. }
    { subst date. destruct day_first; [apply Hnot'|apply Hnot]; (unfold digit; lia). }
    { subst date. unfold date_separator in Hsep. destruct day_first; [apply Hnot'|apply Hnot]; (unfold digit; lia). }
    { done. } { apply Ht. } { done. }
    destruct (moment_format day_first sep y m n c us' b) as (ymd & T & Hfmt & Hymd & HT); try done.
    fold date in Hfmt. rewrite Hfmt. clear Hfmt.
    unfold pattern_to_datetime. change (0 =? 0) with true. cbn iota.
    set (x := if day_first then 45 else sep).
    assert ((if day_first then sub 6 10 (date ++ [c] ++ t) ++ [45] ++ sub 3 5 (date ++ [c] ++ t) ++ [45] ++ sub 0 2 (date ++ [c] ++ t) ++ drop 10 (date ++ [c] ++ t)
             else date ++ [c] ++ t) = (y ++ [x] ++ m ++ [x] ++ n) ++ [c] ++ t) as ->.
    { subst date x. destruct day_first; [|done].
      destruct y as [|y1 [|y2 [|y3 [|y4 [|? ?]]]]]; try done. destruct m as [|m1 [|m2 [|? ?]]]; try done.
      destruct n as [|n1 [|n2 [|? ?]]]; try done. }
    assert (44 ∉ (y ++ [x] ++ m ++ [x] ++ n) ++ [c] ++ t) as H44.
    { rewrite not_elem_of_app. split; [apply Hnot; [unfold digit; lia|subst x; unfold date_separator in Hsep; destruct day_first; lia]|].
      rewrite not_elem_of_app, not_elem_of_cons. split; [unfold time_mark in Hc; split; [lia|apply not_elem_of_nil]|].
      eapply not_clock; [apply Ht|unfold digit; lia|lia|lia]. }
    rewrite replace_all_none by done.
    destruct (fix_time ((y ++ [x] ++ m ++ [x] ++ n) ++ [c]) us t) as (t' & Hfix & Ht').
    { rewrite not_elem_of_app. split; [apply Hnot; [unfold digit; lia|subst x; destruct day_first; [lia|done]]|].
      unfold time_mark in Hc. rewrite not_elem_of_cons. split; [lia|apply not_elem_of_nil]. }
    { done. } { done. }
    rewrite <- app_assoc in Hfix. rewrite Hfix. cbn [res_bind].
    assert (match ymd with Some z => replace_n z 45 2 (((y ++ [x] ++ m ++ [x] ++ n) ++ [c]) ++ t') | None => ((y ++ [x] ++ m ++ [x] ++ n) ++ [c]) ++ t' end
            = (y ++ [45] ++ m ++ [45] ++ n) ++ [c] ++ t') as ->.
    { rewrite <- (app_assoc _ [c]). subst x. destruct day_first.
      - destruct Hymd as [-> | ->]; [apply replace_n_same|]. apply replace_n_none.
        rewrite not_elem_of_app. split; [apply Hnot; [unfold digit; lia|lia]|].
        rewrite not_elem_of_app, not_elem_of_cons. split; [unfold time_mark in Hc; split; [lia|apply not_elem_of_nil]|].
        eapply not_clock; [apply Ht'|unfold digit; lia|lia|lia].
      - destruct (decide (sep = 45)) as [->|Hne].
        + exfalso. subst date. rewrite Hiso in E by done. done.
        + destruct Hymd as [->|?]; [|done]. rewrite <- !app_assoc. cbn [app]. rewrite replace_n_at by (by apply digits_no).
          rewrite replace_n_at by (by apply digits_no). by rewrite replace_n_0. }
    assert (∃ c', time_mark c' ∧ match T with Some z => replace_all z 84 ((y ++ [45] ++ m ++ [45] ++ n) ++ [c] ++ t') | None => (y ++ [45] ++ m ++ [45] ++ n) ++ [c] ++ t' end
            = (y ++ [45] ++ m ++ [45] ++ n) ++ [c'] ++ t') as (c' & Hc' & ->).
    { destruct HT as [-> | ->]; [by exists c|]. exists 84. split; [by right|]. rewrite (replace_all_app _ _ (y ++ [45] ++ m ++ [45] ++ n)), (replace_all_app _ _ [c]).
      rewrite (replace_all_none 32 84 (y ++ _)) by (apply Hnot; [unfold digit; lia|lia]).
      rewrite (replace_all_none 32 84 t') by (eapply not_clock; [apply Ht'|unfold digit; lia|lia|lia]).
      by destruct Hc as [-> | ->]. }
    by rewrite Hiso.
  Qed.

  (** without a fraction a date with full stops is never read *)
  Lemma dotted_never day_first d us s : full_moment day_first 46 d us s → zlen s <= 19 → infer_datetime lib s = Err ValueError.
  Proof using law.
    intros (y & m & n & c & t & Hy & Hm & Hn & Hd & Hsep & Hc & Ht & ->) HL.
    pose proof Hy as ((_ & Dy & _) & Ly). pose proof Hm as ((_ & Dm & _) & Lm). pose proof Hn as ((_ & Dn & _) & Ln).
    set (date := if day_first then n ++ [46] ++ m ++ [46] ++ y else y ++ [46] ++ m ++ [46] ++ n) in *.
    assert (length date = 10%nat) as Ld by (subst date; destruct day_first; rewrite !app_length, Ly, Lm, Ln; done).
    assert (base_clock us t) as Hb.
    { destruct (clock_cases us t (proj1 Ht)) as [?|(b & f & fs & _ & Lb & Hf & ->)]; [|done|].
      - intros E. rewrite !app_length, Ld, E in HL. cbn in HL. lia.
      - exfalso. rewrite !app_length, Ld, Lb, (proj2 Hf) in HL. cbn in HL. lia. }
    assert (46 ∉ t) as H46t by (by apply (base_is_clock us)).
    assert (cut (date ++ [c] ++ t) = -1) as Hcut.
    { unfold cut. rewrite (proj2 (has_spec 46 _)).
      - unfold find_char. rewrite app_assoc. rewrite drop_app_alt by (rewrite app_length, Ld; done). by apply index_from_none.
      - subst date. destruct day_first; rewrite !elem_of_app, !elem_of_list_singleton; tauto. }
    assert (iso_datetime lib (date ++ [c] ++ t) = None) as E.
    { destruct day_first; subst date.
      + apply (iso_reject lib law). left. apply (not_all_digits _ _ 2 46); [|lia|unfold digit; lia].
        rewrite !lookup_app_l by (rewrite ?app_length; cbn [length]; lia). rewrite lookup_app_r by lia. rewrite Ln. done.
      + apply (iso_reject lib law). right. right. exists 46. rewrite lookup_app_l by (rewrite ?app_length; cbn [length]; lia).
        rewrite lookup_app_r by lia. rewrite Ly. split; [done|]. unfold digit. lia. }
    unfold infer_datetime. rewrite E. fold (cut (date ++ [c] ++ t)). rewrite Hcut. unfold upto. change (-1 <? 0) with true. cbn iota.
      assert (∀ k l, pattern (take k l) = take k (pattern l)) as Htake by (intros k l; unfold pattern; by rewrite <- firstn_map).
      rewrite Htake, !app_length, Ld, !pattern_app.
      assert (length t = length (pattern t)) as -> by (by rewrite pattern_length).
      assert (¬ digit c) as Hcd by (unfold time_mark, digit in *; lia). rewrite (pattern_other c) by done.
      assert (∃ p, (p = [78; 78; 46; 78; 78; 46; 78; 78; 78; 78] ∨ p = [78; 78; 78; 78; 46; 78; 78; 46; 78; 78]) ∧ pattern date = p) as (p & Hp & ->).
      { subst date. eexists. split; [|reflexivity]. destruct day_first; rewrite !pattern_app, !(pattern_other 46), (pattern_digits y), (pattern_digits m), (pattern_digits n) by (first [done|unfold digit; lia]);
        rewrite Ly, Lm, Ln; auto. }
      destruct (pattern_base _ _ Hb) as [-> | ->]; destruct Hc as [-> | ->]; destruct Hp as [-> | ->]; by vm_compute.
  Qed.

  (** ** Dates and times without separators *)
  Lemma rstrip_keep (l : list Z) c k : c ≠ 58 → rev (lstrip_colons (rev (l ++ [c] ++ replicate k 58))) = l ++ [c].
  Proof.
    intros H. assert (rev (replicate k 58) = replicate k 58) as Hr.
    { induction k as [|k IH]; [done|]. rewrite replicate_S_end at 2. cbn [replicate rev]. by rewrite IH. }
    rewrite !rev_app_distr, Hr. cbn [rev app]. clear Hr.
    assert (lstrip_colons (((replicate k 58) ++ [c]) ++ rev l) = c :: rev l) as ->.
    { induction k as [|k IH]; cbn [replicate app lstrip_colons]; [destruct (Z.eqb_spec c 58); [done|done]|done]. }
    cbn [rev]. by rewrite rev_involutive.
  Qed.

  (** the text once spread, if the format has neither [ymd] nor [T] *)
  Lemma spread_read compact d us s day t : compact ≠ 0 → iso_day d day → python_date d → wall_clock us t → 46 ∉ t →
    spread compact s = day ++ [84] ++ t → pattern_to_datetime lib (Moment None None compact false) s = Ok (d, us).
  Proof using law.
    intros H0 Hday Hd Ht H46 E. unfold pattern_to_datetime. destruct (Z.eqb_spec compact 0) as [Hx|Hx]; [done|clear Hx]. rewrite E.
    destruct Hday as (y & m & n & Hy & Hm & Hn & ->).
    assert (∀ c, ¬ digit c → c ≠ 45 → c ∉ y ++ [45] ++ m ++ [45] ++ n) as Hnot.
    { destruct Hy as ((_ & Dy & _) & _), Hm as ((_ & Dm & _) & _), Hn as ((_ & Dn & _) & _).
      intros c Hc H45. rewrite !not_elem_of_app, !not_elem_of_cons. split_and!; try done; first [apply not_elem_of_nil|by apply digits_no]. }
    rewrite replace_all_none.
    2:{ rewrite not_elem_of_app. split; [apply Hnot; [unfold digit; lia|lia]|]. rewrite not_elem_of_app, not_elem_of_cons.
        split; [split; [lia|apply not_elem_of_nil]|]. eapply not_clock; [apply Ht|unfold digit; lia|lia|lia]. }
    rewrite fix_none.
    2:{ rewrite not_elem_of_app. split; [apply Hnot; [unfold digit; lia|lia]|]. rewrite not_elem_of_app, not_elem_of_cons.
        split; [split; [lia|apply not_elem_of_nil]|]. done. }
    cbn [res_bind]. rewrite (law_moment _ _ _ law d _ 84 us t); [done| |done|by right|done]. by exists y, m, n.
  Qed.

  Lemma two k n ds : number_of k n ds → k = 2%nat → ∃ a b, ds = [a; b] ∧ digit a ∧ digit b.
  Proof.
    intros ((_ & D & _) & L) ->. destruct ds as [|a [|b [|? ?]]]; try done. exists a, b.
    rewrite !list.Forall_cons in D. tauto.
  Qed.
  Lemma four n ds : number_of 4 n ds → ∃ a b c e, ds = [a; b; c; e] ∧ Forall digit ds.
  Proof.
    intros ((_ & D & _) & L). destruct ds as [|a [|b [|c [|e [|? ?]]]]]; try done. by exists a, b, c, e.
  Qed.
  Lemma digit_not c : digit c → c ≠ 58.
  Proof. unfold digit. lia. Qed.

  Lemma no_cut s : 46 ∉ s → 44 ∉ s → upto (cut s) s = s.
  Proof. intros. by apply upto_all. Qed.

  Lemma compact_read d us s : compact_moment d us s → infer_datetime lib s = Ok (d, us).
  Proof using law.
    intros H. unfold infer_datetime. destruct (iso_datetime lib s) as [v|] eqn:E.
    { by rewrite (law_compact _ _ _ law d us s v H E). }
    fold (cut s). destruct H as (y & m & n & mark & time & Hy & Hm & Hn & Hd & -> & H).
    pose proof (four _ _ Hy) as (y1 & y2 & y3 & y4 & Ey & Dy). pose proof (two _ _ _ Hm eq_refl) as (m1 & m2 & Em & Dm1 & Dm2).
    pose proof (two _ _ _ Hn eq_refl) as (n1 & n2 & En & Dn1 & Dn2).
    assert (iso_day d ((y1 :: y2 :: y3 :: y4 :: 45 :: m1 :: m2 :: 45 :: n1 :: n2 :: nil))) as Hday.
    { exists y, m, n. split_and!; try done. by subst. }
    assert (Forall digit (y ++ m ++ n)) as Dday.
    { rewrite !list.Forall_app. split_and!; [done|apply (proj1 Hm)|apply (proj1 Hn)]. }
    assert (∀ rest, Forall (λ c, digit c ∨ c = 84 ∨ c = 58) rest → upto (cut (y ++ m ++ n ++ rest)) (y ++ m ++ n ++ rest) = y ++ m ++ n ++ rest) as Hno.
    { intros rest Hr. rewrite !app_assoc. apply no_cut; rewrite <- (app_assoc y), not_elem_of_app; (split; [apply digits_no; [done|unfold digit; lia]|]);
      intros Hin; rewrite list.Forall_forall in Hr; destruct (Hr _ Hin) as [?|[?|?]]; unfold digit in *; lia. }
    destruct H as [(Hmark & Hcl & L & B1 & B2 & B3)|(-> & Hcl & L)].
    - rewrite Hno.
      2:{ rewrite list.Forall_app. split; [destruct Hmark as [-> | ->]; rewrite ?list.Forall_cons, list.Forall_nil; auto|].
          destruct Hcl as [h hs ((_ & D1 & _) & _)|h k hs ms ((_ & D1 & _) & _) ((_ & D2 & _) & _)|h k x hs ms ss ((_ & D1 & _) & _) ((_ & D2 & _) & _) ((_ & D3 & _) & _)];
          rewrite ?list.Forall_app; split_and?; eapply list.Forall_impl; try eassumption; auto. }
      destruct Hcl as [h hs Hh|h k hs ms Hh Hk|h k x hs ms ss Hh Hk Hx].
      { destruct Hh as (_ & Hl). rewrite Hl in L. lia. }
      + pose proof (two _ _ _ Hh eq_refl) as (h1 & h2 & Eh & Dh1 & Dh2). pose proof (two _ _ _ Hk eq_refl) as (k1 & k2 & Ek & Dk1 & Dk2).
        assert (wall_clock ((h * 60 + k) * 60000000) [h1; h2; 58; k1; k2]) as Hw.
        { split; [|subst; done]. assert ([h1; h2; 58; k1; k2] = hs ++ [58] ++ ms) as -> by (by subst). by constructor. }
        assert (46 ∉ [h1; h2; 58; k1; k2]) as H46 by (rewrite !not_elem_of_cons; unfold digit in *; split_and!; [lia..|apply not_elem_of_nil]).
        assert (Forall digit (hs ++ ms)) as Dt by (rewrite !list.Forall_app; split_and!; [apply (proj1 Hh)|apply (proj1 Hk)]).
        destruct Hmark as [-> | ->].
        * assert (dget datetime_formats (pattern (y ++ m ++ n ++ [] ++ hs ++ ms)) = Some (Moment None None 2 false)) as ->.
          { rewrite pattern_digits by (cbn [app]; rewrite (app_assoc m), (app_assoc y); by apply Forall_app_2).
            subst. by vm_compute. }
          eapply spread_read; [lia|exact Hday|done|exact Hw|done|]. subst. unfold spread.
          assert (∀ l, l = [y1; y2; y3; y4; 45; m1; m2; 45; n1; n2; 84; h1; h2; 58; k1] ++ [k2] ++ replicate 1 58 →
            rev (lstrip_colons (rev l)) = [y1; y2; y3; y4; 45; m1; m2; 45; n1; n2] ++ [84] ++ [h1; h2; 58; k1; k2]) as R.
          { intros l ->. by rewrite rstrip_keep by (by apply digit_not). }
          apply R. by vm_compute.
        * assert (dget datetime_formats (pattern (y ++ m ++ n ++ [84] ++ hs ++ ms)) = Some (Moment None None 1 false)) as ->.
          { rewrite (app_assoc m), (app_assoc y), (pattern_app (y ++ m ++ n)), (pattern_app [84]), (pattern_other 84), (pattern_digits (y ++ m ++ n)), (pattern_digits (hs ++ ms)) by (first [done|unfold digit; lia]).
            subst. by vm_compute. }
          eapply spread_read; [lia|exact Hday|done|exact Hw|done|]. subst. unfold spread.
          assert (∀ l, l = [y1; y2; y3; y4; 45; m1; m2; 45; n1; n2; 84; h1; h2; 58; k1] ++ [k2] ++ replicate 1 58 →
            rev (lstrip_colons (rev l)) = [y1; y2; y3; y4; 45; m1; m2; 45; n1; n2] ++ [84] ++ [h1; h2; 58; k1; k2]) as R.
          { intros l ->. by rewrite rstrip_keep by (by apply digit_not). }
          apply R. by vm_compute.
      + pose proof (two _ _ _ Hh eq_refl) as (h1 & h2 & Eh & Dh1 & Dh2). pose proof (two _ _ _ Hk eq_refl) as (k1 & k2 & Ek & Dk1 & Dk2).
        pose proof (two _ _ _ Hx eq_refl) as (x1 & x2 & Ex & Dx1 & Dx2).
        assert (wall_clock (((h * 60 + k) * 60 + x) * 1000000) [h1; h2; 58; k1; k2; 58; x1; x2]) as Hw.
        { split; [|subst; done]. assert ([h1; h2; 58; k1; k2; 58; x1; x2] = hs ++ [58] ++ ms ++ [58] ++ ss) as -> by (by subst). by constructor. }
        assert (46 ∉ [h1; h2; 58; k1; k2; 58; x1; x2]) as H46 by (rewrite !not_elem_of_cons; unfold digit in *; split_and!; [lia..|apply not_elem_of_nil]).
        assert (Forall digit (hs ++ ms ++ ss)) as Dt by (rewrite !list.Forall_app; split_and!; [apply (proj1 Hh)|apply (proj1 Hk)|apply (proj1 Hx)]).
        assert (∀ l, l = [y1; y2; y3; y4; 45; m1; m2; 45; n1; n2; 84; h1; h2; 58; k1; k2; 58; x1] ++ [x2] ++ replicate 0 58 →
            rev (lstrip_colons (rev l)) = [y1; y2; y3; y4; 45; m1; m2; 45; n1; n2] ++ [84] ++ [h1; h2; 58; k1; k2; 58; x1; x2]) as R.
        { intros l ->. by rewrite rstrip_keep by (by apply digit_not). }
        destruct Hmark as [-> | ->].
        * assert (dget datetime_formats (pattern (y ++ m ++ n ++ [] ++ hs ++ ms ++ ss)) = Some (Moment None None 2 false)) as ->.
          { rewrite pattern_digits by (cbn [app]; rewrite (app_assoc m), (app_assoc y); by apply Forall_app_2).
            subst. by vm_compute. }
          eapply spread_read; [lia|exact Hday|done|exact Hw|done|]. subst. unfold spread. apply R. by vm_compute.
        * assert (dget datetime_formats (pattern (y ++ m ++ n ++ [84] ++ hs ++ ms ++ ss)) = Some (Moment None None 1 false)) as ->.
          { rewrite (app_assoc m), (app_assoc y), (pattern_app (y ++ m ++ n)), (pattern_app [84]), (pattern_other 84), (pattern_digits (y ++ m ++ n)), (pattern_digits (hs ++ ms ++ ss)) by (first [done|unfold digit; lia]).
            subst. by vm_compute. }
          eapply spread_read; [lia|exact Hday|done|exact Hw|done|]. subst. unfold spread. apply R. by vm_compute.
    - pose proof (clock_chars _ _ (proj1 Hcl)) as Hch.
      destruct (clock_cases us time (proj1 Hcl)) as [Hb|(b & f & fs & _ & Lb & Hf & ->)]; [lia| |rewrite !app_length, Lb, (proj2 Hf) in L; done].
      destruct Hb as [h k hs ms Hh Hk|h k x hs ms ss Hh Hk Hx].
      { rewrite !app_length, (proj2 Hh), (proj2 Hk) in L. done. }
      pose proof (two _ _ _ Hh eq_refl) as (h1 & h2 & Eh & Dh1 & Dh2). pose proof (two _ _ _ Hk eq_refl) as (k1 & k2 & Ek & Dk1 & Dk2).
      pose proof (two _ _ _ Hx eq_refl) as (x1 & x2 & Ex & Dx1 & Dx2).
      rewrite Hno.
      2:{ subst. cbn [app]. rewrite !list.Forall_cons, list.Forall_nil. split_and!; auto. }
      assert (dget datetime_formats (pattern (y ++ m ++ n ++ [84] ++ hs ++ [58] ++ ms ++ [58] ++ ss)) = Some (Moment None None 3 false)) as ->.
      { rewrite (app_assoc m), (app_assoc y), (pattern_app (y ++ m ++ n)), !(pattern_app [_]), (pattern_app hs), !(pattern_app [_]), (pattern_app ms), !(pattern_app [_]), (pattern_other 84), !(pattern_other 58), (pattern_digits (y ++ m ++ n)), (pattern_digits hs), (pattern_digits ms), (pattern_digits ss)
          by (first [done|unfold digit; lia|apply (proj1 Hh)|apply (proj1 Hk)|apply (proj1 Hx)]).
        subst. by vm_compute. }
      eapply spread_read; [lia|exact Hday|done|exact Hcl|by eapply (proj2 (base_is_clock _ _ (base_hms h k x hs ms ss Hh Hk Hx)))|]. subst. unfold spread.
      assert (∀ l, l = [y1; y2; y3; y4; 45; m1; m2; 45; n1; n2; 84; h1; h2; 58; k1; k2; 58; x1] ++ [x2] ++ replicate 0 58 →
            rev (lstrip_colons (rev l)) = [y1; y2; y3; y4; 45; m1; m2; 45; n1; n2] ++ [84] ++ [h1; h2; 58; k1; k2; 58; x1; x2]) as R.
      { intros l ->. by rewrite rstrip_keep by (by apply digit_not). }
      apply R. by vm_compute.
  Qed.
End Lib.
