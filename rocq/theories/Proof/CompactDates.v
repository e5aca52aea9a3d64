(** What is read as a date without separators. *)
From Coq Require Import String ZifyBool.
From Verif.Spec Require Import TypedText.
From Verif.Model Require Import Infer.
From Verif.Proof Require Import NpyProofs InferProofs.
Local Open Scope Z_scope.

Lemma has_tokens_none s : has_tokens false s = Ok false → Forall digit s.
Proof.
  induction s as [|c s IH]; intros H; [constructor|]. cbn [has_tokens] in H.
  destruct (isDigit c) eqn:E.
  - constructor; [by apply isDigit_spec|by apply IH].
  - destruct (accepted_token c); [done|]. by rewrite andb_false_r in H.
Qed.

Lemma infer_compact_sound checks s d : inferDate checks true false s = Ok d →
  8 <= zlen s <= 10 ∧ Forall digit (take 5 s) ∧
  (Forall digit s → (checks = false → ∀ sep y m rest t, s = t ++ rest → ¬ date_text Compact sep (Ymd y m 0) t) →
   ∃ t rest, s = t ++ rest ∧ valid_ymd d ∧ ∀ sep, date_text Compact sep d t).
Proof.
  intros H. unfold inferDate in H. destruct (_ || _) eqn:Hlen in H; [done|].
  unfold parseDateWords in H. destruct (runeLen s =? zlen s) eqn:Er; cbn [negb] in H; [|done].
  destruct (has_tokens false (take 5 s)) as [[]|] eqn:E; cbn [res_bind] in H; [done| |done].
  apply has_tokens_none in E. split; [lia|]. split; [done|]. intros Hd Hz.
  destruct (_ || _) eqn:E8 in H; [done|]. cbn [res_bind] in H.
  assert (s = (take 4 s ++ take 2 (drop 4 s) ++ take 2 (drop 6 s)) ++ drop 8 s) as Es.
  { do 8 (destruct s as [|? s]; [done|]). done. }
  set (w0 := take 4 s) in *. set (w1 := take 2 (drop 4 s)) in *. set (w2 := take 2 (drop 6 s)) in *.
  assert (length w0 = 4%nat) as L0 by (subst w0; rewrite take_length; lia).
  assert (length w1 = 2%nat) as L1 by (subst w1; rewrite take_length, drop_length; lia).
  assert (length w2 = 2%nat) as L2 by (subst w2; rewrite take_length, drop_length; lia).
  assert (Forall digit w0) as D0 by (by apply Forall_take).
  assert (Forall digit w1) as D1 by (by apply Forall_take, Forall_drop).
  assert (Forall digit w2) as D2 by (by apply Forall_take, Forall_drop).
  unfold wordsToDate, guessDate in H. rewrite (proj2 (Z.eqb_eq (zlen w0) 4)) in H by lia.
  assert (∀ w, w ≠ [] → Forall digit w → zlen w <= 18 → ∃ n, number n w ∧ parseInt w = Ok n) as Hn.
  { intros w Hw Dw Lw. exists (digits_value w). assert (number (digits_value w) w) as Hnw by done.
    split; [done|]. by apply parseInt_number. }
  destruct (Hn w0) as (y & N0 & P0); [by destruct w0|done|lia|].
  destruct (Hn w1) as (m & N1 & P1); [by destruct w1|done|lia|].
  destruct (Hn w2) as (n & N2 & P2); [by destruct w2|done|lia|].
  rewrite P0, P1, P2 in H. cbn [res_bind] in H.
  assert (∀ sep n', n' = n → date_text Compact sep (Ymd y m n') (w0 ++ w1 ++ w2)) as Ht.
  { intros sep ? ->. exists w0, w1, w2. cbn [yy mm dd]. done. }
  case_match; [done|]. case_match; [done|]. rewrite getDaysInMonth_spec in H by lia. case_match; [done|].
  unfold newPyDate in H. destruct (Z.leb_spec 1 n).
  - injection H as <-. exists (w0 ++ w1 ++ w2), (drop 8 s). split; [done|].
    split; [split; cbn [yy mm dd]; lia|]. intros sep. by apply Ht.
  - destruct checks; [done|]. exfalso. eapply (Hz eq_refl 0 y m); [exact Es|]. apply Ht. lia.
Qed.
