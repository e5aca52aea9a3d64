(** Proofs about the settings of the tasks of a text import (C111). *)
From Coq Require Import Ascii String.
From Verif.Spec Require Import Base TaskSettings.
From Verif.Model Require Import Csv EncFile TaskSettings.
Local Open Scope string_scope.
Local Open Scope list_scope.
Local Open Scope Z_scope.

Lemma told_char c : tellable c → one_char (unescapeSeq (addEscapedChar c)) = Ok c.
Proof.
  unfold tellable. cbv zeta.
  destruct c as [[] [] [] [] [] [] [] []]; intros H;
    lazymatch type of H with context [N_of_ascii ?a] =>
      let n := eval vm_compute in (N_of_ascii a) in change (N_of_ascii a) with n in H end;
    first [exfalso; lia | vm_compute; reflexivity].
Qed.

Lemma untold_char c : ¬ tellable c → one_char (unescapeSeq (addEscapedChar c)) = Err OtherError.
Proof.
  unfold tellable. cbv zeta.
  destruct c as [[] [] [] [] [] [] [] []]; intros H;
    lazymatch type of H with context [N_of_ascii ?a] =>
      let n := eval vm_compute in (N_of_ascii a) in change (N_of_ascii a) with n in H end;
    first [exfalso; lia | vm_compute; reflexivity].
Qed.

Lemma tellable_dec c : tellable c ∨ ¬ tellable c.
Proof. unfold tellable. cbv zeta. lia. Qed.

Lemma quoting_there q : str2quoting (quoting_text q) = Ok q.
Proof. by destruct q; vm_compute. Qed.

Lemma skip_there s : str2SkipEmpty (skip_text s) = Ok s.
Proof. by destruct s; vm_compute. Qed.

Lemma substring_all s : substring 0 (String.length s) s = s.
Proof. induction s as [|a s IH]; cbn; [done|]. by rewrite IH. Qed.

Lemma encoding_there e : str2Enc (encoding_text e) = Some e.
Proof.
  destruct e as [| |conv]; [by vm_compute..|].
  unfold str2Enc, encoding_text. cbv zeta.
  replace (string_map ascii_upper ("ENC_CONV|" +:+ conv)) with ("ENC_CONV|" +:+ string_map ascii_upper conv)
    by reflexivity.
  rewrite decide_False by discriminate. rewrite decide_False by discriminate.
  replace (String.prefix "ENC_CONV|" ("ENC_CONV|" +:+ string_map ascii_upper conv)) with true
    by (by destruct (string_map ascii_upper conv)).
  replace (String.length ("ENC_CONV|" +:+ conv) - 9)%nat with (String.length conv)
    by (change (String.length conv = String.length conv - 0)%nat; lia).
  change (substring 9 (String.length conv) ("ENC_CONV|" +:+ conv)) with (substring 0 (String.length conv) conv).
  by rewrite substring_all.
Qed.

(** ** The spelling of names *)

Lemma upper_letter a b : (65 ≤ N_of_ascii b ∧ N_of_ascii b ≤ 90)%N ∨ N_of_ascii b = 95%N →
  ascii_upper a = b ↔ letter_case a b.
Proof.
  intros Hb. unfold letter_case, ascii_upper. cbv zeta. split.
  - destruct ((97 <=? N_of_ascii a)%N && (N_of_ascii a <=? 122)%N) eqn:E; [|intros ->; by left].
    apply andb_prop in E as [E1 E2]. apply N.leb_le in E1, E2. intros <-. right.
    rewrite N_ascii_embedding by lia. lia.
  - intros [->|(H1&H2&H3)].
    + destruct ((97 <=? N_of_ascii b)%N && (N_of_ascii b <=? 122)%N) eqn:E; [|done].
      apply andb_prop in E as [E1 E2]. apply N.leb_le in E1, E2. lia.
    + replace ((97 <=? N_of_ascii a)%N && (N_of_ascii a <=? 122)%N) with true
        by (symmetry; apply andb_true_intro; split; apply N.leb_le; lia).
      rewrite H3. replace (N_of_ascii b + 32 - 32)%N with (N_of_ascii b) by lia.
      by rewrite ascii_N_embedding.
Qed.

Fixpoint name_chars (s : string) : Prop :=
  match s with
  | EmptyString => True
  | String b s => ((65 ≤ N_of_ascii b ∧ N_of_ascii b ≤ 90)%N ∨ N_of_ascii b = 95%N) ∧ name_chars s
  end.

Lemma spelled_upper name s : name_chars name → string_map ascii_upper s = name ↔ spelled s name.
Proof.
  revert s. induction name as [|b name IH]; intros [|a s] Hn; cbn; try done.
  destruct Hn as [Hb Hn]. rewrite <-(IH s Hn), <-(upper_letter a b Hb). split.
  - intros [= -> ->]. done.
  - intros [-> ->]. done.
Qed.

Lemma name_of_quoting q : name_chars (quoting_text q).
Proof.
  destruct q; cbn [quoting_text name_chars];
    repeat match goal with |- context [N_of_ascii ?a] =>
      let n := eval vm_compute in (N_of_ascii a) in change (N_of_ascii a) with n end;
    repeat (split; [lia|]); exact I.
Qed.

Lemma str2quoting_ok s q : str2quoting s = Ok q ↔ spelled s (quoting_text q).
Proof.
  rewrite <-(spelled_upper _ _ (name_of_quoting q)). split.
  - unfold str2quoting. cbv zeta. repeat (destruct (decide _) as [E|_]; [intros [= <-]; exact E|]). done.
  - intros E. unfold str2quoting. cbv zeta. rewrite E. by destruct q; vm_compute.
Qed.

(** ** The whole way *)

Lemma only_char_ok s c : one_char s = Ok c ↔ only_char s c.
Proof.
  unfold only_char. destruct s as [|a [|b s]]; cbn; split; try done.
  - by intros [= ->].
  - by intros [= ->].
Qed.

Lemma record_told path e d skip guess fs names size pages offset count :
  toTaskArgs (newTabliteTasks path (encoding_text e) d fs names size guess (skip_text skip))
    (newTabliteTask pages offset count) =
  res_bind (one_char (unescapeSeq (addEscapedChar (nd_delimiter d)))) (λ delimiter,
  res_bind (one_char (unescapeSeq (addEscapedChar (nd_quotechar d)))) (λ quotechar,
  res_bind (one_char (unescapeSeq (addEscapedChar (nd_escapechar d)))) (λ escapechar,
  res_bind (one_char (unescapeSeq (addEscapedChar (nd_lineterminator d)))) (λ lineterminator,
  Ok (TaskArgs path e (newDialect delimiter quotechar escapechar (nd_doublequote d) (nd_quoting d)
        (nd_skipinitialspace d) (nd_skiptrailingspace d) lineterminator) guess pages fs offset count skip))))).
Proof.
  transitivity (toTaskArgs_of path (encoding_text e) (addEscapedChar (nd_delimiter d)) (addEscapedChar (nd_quotechar d))
    (addEscapedChar (nd_escapechar d)) (nd_doublequote d) (quoting_text (nd_quoting d)) (nd_skipinitialspace d)
    (nd_skiptrailingspace d) (addEscapedChar (nd_lineterminator d)) guess pages offset count fs (skip_text skip)).
  { reflexivity. }
  unfold toTaskArgs_of. rewrite quoting_there, encoding_there, skip_there. reflexivity.
Qed.

Section whole.
  Context (path encoding newline delimiter text_qualifier quoting : string) (strip guess : bool)
    (skip : skip_empty) (size : Z) (fs : list Z) (names : list string) (pages : list string) (offset count : Z).

  Notation T := (told path encoding newline delimiter text_qualifier quoting strip guess skip size fs names pages offset count).

  Lemma told_ok e nl d q k :
    str2Enc encoding = Some e → only_char newline nl → only_char delimiter d → only_char text_qualifier q →
    spelled quoting (quoting_text k) → tellable nl → tellable d → tellable q →
    T = Ok (TaskArgs path e (NimDialect d q "\"%char true k strip strip nl false) guess pages fs offset count skip).
  Proof.
    intros He Hn Hd Hq Hk Tn Td Tq. apply only_char_ok in Hn, Hd, Hq. apply str2quoting_ok in Hk.
    unfold told, import_record. rewrite He, Hn, Hd, Hq, Hk. cbn [res_bind].
    rewrite record_told. cbn [makeDialect newDialect nd_delimiter nd_quotechar nd_escapechar nd_lineterminator].
    rewrite (told_char d), (told_char q), (told_char nl) by done.
    rewrite (told_char backslash) by (right; right; vm_compute; repeat split; discriminate). reflexivity.
  Qed.

  Lemma told_only a : T = Ok a →
    ∃ e nl d q k, str2Enc encoding = Some e ∧ only_char newline nl ∧ only_char delimiter d ∧ only_char text_qualifier q ∧
      spelled quoting (quoting_text k) ∧ tellable nl ∧ tellable d ∧ tellable q.
  Proof.
    unfold told, import_record.
    destruct (str2Enc encoding) as [e|]; [|done]. cbn [res_bind].
    destruct (one_char newline) as [nl|] eqn:Hn; [|done]. cbn [res_bind].
    destruct (one_char delimiter) as [d|] eqn:Hd; [|done]. cbn [res_bind].
    destruct (one_char text_qualifier) as [q|] eqn:Hq; [|done]. cbn [res_bind].
    destruct (str2quoting quoting) as [k|] eqn:Hk; [|done]. cbn [res_bind].
    apply only_char_ok in Hn, Hd, Hq. apply str2quoting_ok in Hk.
    rewrite record_told. cbn [makeDialect newDialect nd_delimiter nd_quotechar nd_escapechar nd_lineterminator].
    intros H. exists e, nl, d, q, k.
    destruct (tellable_dec d) as [Td|Td]; [|by rewrite (untold_char d Td) in H].
    rewrite (told_char d Td) in H. cbn [res_bind] in H.
    destruct (tellable_dec q) as [Tq|Tq]; [|by rewrite (untold_char q Tq) in H].
    rewrite (told_char q Tq) in H. cbn [res_bind] in H.
    destruct (tellable_dec nl) as [Tn|Tn]; [done|]. rewrite (untold_char nl Tn) in H. by vm_compute in H.
  Qed.
End whole.
