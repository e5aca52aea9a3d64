(** Lemmas on texts cut into words. *)
From Verif.Spec Require Import Words.
From Verif.Model Require Import Words.
From Verif.Proof Require Import HeadersProofs.
Local Open Scope Z_scope.

(** *** find and split *)
Lemma starts_with_app p s : starts_with p s = true ↔ ∃ r, s = p ++ r.
Proof.
  revert s. induction p as [|x p IH]; intros s; cbn [starts_with].
  { split; [intros _; by exists s | done]. }
  destruct s as [|y s].
  { split; [done | intros [r ?]; done]. }
  rewrite andb_true_iff, Z.eqb_eq, IH. split.
  - intros [-> [r ->]]. by exists r.
  - intros [r [= -> ->]]. split; [done | by exists r].
Qed.

Lemma str_find_eq text e :
  str_find text e = if starts_with e text then Some O
                    else match text with [] => None | _ :: text => S <$> str_find text e end.
Proof. by destruct text. Qed.

Lemma str_find_Some text e n :
  str_find text e = Some n →
  text = take n text ++ e ++ drop (length e + n) text ∧ (n <= length text)%nat ∧
  ∀ a' r', text = a' ++ e ++ r' → (n <= length a')%nat.
Proof.
  revert n. induction text as [|c text IH]; intros n; rewrite str_find_eq.
  - destruct (starts_with e []) eqn:Hs; [|done]. intros [= <-]. apply starts_with_app in Hs as [r Hr].
    destruct e; [|done]. split; [done|]. split; [done|]. intros; lia.
  - destruct (starts_with e (c :: text)) eqn:Hs.
    + intros [= <-]. apply starts_with_app in Hs as [r Hr]. rewrite Hr. split_and!; [|lia|intros; lia].
      by rewrite Nat.add_0_r, take_0, drop_app.
    + destruct (str_find text e) as [m|] eqn:Hf; [|done]. intros [= <-].
      destruct (IH m eq_refl) as (H1 & H2 & H3). split_and!.
      * rewrite Nat.add_succ_r. cbn [take drop app]. by f_equal.
      * cbn; lia.
      * intros [|x a'] r' Hr.
        { assert (starts_with e (c :: text) = true) by (apply starts_with_app; by exists r'). congruence. }
        injection Hr as -> Hr. cbn. apply H3 in Hr. lia.
Qed.

Lemma str_find_None text e : str_find text e = None ↔ ¬ occurs e text.
Proof.
  split.
  - intros Hf (a & b & ->). revert Hf. induction a as [|x a IH]; rewrite str_find_eq.
    + assert (starts_with e ([] ++ e ++ b) = true) as -> by (apply starts_with_app; by exists b). done.
    + destruct (starts_with e ((x :: a) ++ e ++ b)); [done|]. cbn [app].
      destruct (str_find (a ++ e ++ b) e); [done|]. intros _. by apply IH.
  - intros Hn. destruct (str_find text e) as [n|] eqn:Hf; [|done]. exfalso. apply Hn.
    apply str_find_Some in Hf as [Ht _]. by eexists _, _.
Qed.

Lemma str_find_cut text e n :
  str_find text e = Some n → first_cut e text (take n text) (drop (length e + n) text).
Proof.
  intros Hf. apply str_find_Some in Hf as (H1 & H2 & H3). split; [done|]. intros a' r' Hr.
  apply H3 in Hr. rewrite take_length. lia.
Qed.

Lemma first_cut_unique e text a r a' r' : first_cut e text a r → first_cut e text a' r' → a = a' ∧ r = r'.
Proof.
  intros [H1 H2] [H1' H2']. pose proof (H2 _ _ H1'). pose proof (H2' _ _ H1). subst text.
  apply app_inj_1 in H1' as [-> Hr]; [|lia]. by apply app_inv_head in Hr.
Qed.

Lemma split_leftmost seq text chunks : split_by_sequence text seq = Ok chunks ↔ leftmost seq chunks text.
Proof.
  revert text chunks. induction seq as [|e seq IH]; intros text chunks; cbn [split_by_sequence].
  - split; [intros [= <-]; constructor | intros H; by inversion H].
  - destruct (str_find text e) as [n|] eqn:Hf.
    + pose proof (str_find_cut _ _ _ Hf) as Hc. split.
      * destruct (split_by_sequence _ seq) as [cs|] eqn:Hs; [|done]. intros [= <-].
        econstructor; [exact Hc|]. by apply IH.
      * intros H. inversion H as [|? ? a cs rest ? Hc' Hl]; subst.
        destruct (first_cut_unique _ _ _ _ _ _ Hc Hc') as [-> <-]. apply IH in Hl. by rewrite Hl.
    + split; [done|]. intros H. inversion H as [|? ? a cs rest ? Hc' Hl]; subst. exfalso.
      apply str_find_None in Hf. apply Hf. destruct Hc' as [-> _]. by eexists _, _.
Qed.

Lemma split_glued seq text chunks : split_by_sequence text seq = Ok chunks → glued seq chunks text.
Proof.
  rewrite split_leftmost. induction 1 as [|s seps a chunks rest text [-> _] _ IH]; by constructor.
Qed.

(** A longer text can be cut if its end can. *)
Lemma glued_before seq chunks text p : glued seq chunks text → ∃ chunks', glued seq chunks' (p ++ text).
Proof.
  destruct 1 as [a|s seps a chunks rest H]; [eexists; constructor|].
  rewrite (app_assoc p a). eexists. by constructor.
Qed.

Lemma split_total seq chunks text : glued seq chunks text → ∃ chunks', split_by_sequence text seq = Ok chunks'.
Proof.
  revert chunks text. induction seq as [|e seq IH]; intros chunks text H; inversion H as [|? ? a cs rest Hg]; subst.
  { by eexists. }
  cbn [split_by_sequence]. destruct (str_find (a ++ e ++ rest) e) as [n|] eqn:Hf.
  2: { apply str_find_None in Hf. exfalso. apply Hf. by eexists _, _. }
  pose proof (str_find_cut _ _ _ Hf) as [Hc Hl]. specialize (Hl a rest eq_refl).
  set (r0 := drop (length e + n) (a ++ e ++ rest)) in *.
  set (a0 := take n (a ++ e ++ rest)) in *.
  assert (∃ p, r0 = p ++ rest) as [p Hp].
  { rewrite (app_assoc a), (app_assoc a0) in Hc. apply app_eq_app in Hc as (k & [[H1 H2]|[H1 H2]]).
    - by exists k.
    - exists []. apply (f_equal length) in H1. rewrite !app_length in H1.
      destruct k; [done|]. cbn in H1. lia. }
  destruct (glued_before _ _ _ p Hg) as [cs' Hcs']. rewrite <- Hp in Hcs'.
  destruct (IH _ _ Hcs') as [cs'' ->]. by eexists.
Qed.

Lemma split_error seq text e :
  split_by_sequence text seq = Err e → e = ValueError ∧ ¬ ∃ chunks, glued seq chunks text.
Proof.
  intros He. split.
  - revert text He. induction seq as [|x seq IH]; intros text; cbn [split_by_sequence]; [done|].
    destruct (str_find text x) as [n|]; [|by intros [= <-]].
    destruct (split_by_sequence _ seq) as [cs|e'] eqn:Hs; [done|]. intros [= <-]. by eapply IH.
  - intros [cs Hg]. apply split_total in Hg as [cs' ?]. congruence.
Qed.

Lemma str_split_joined fuel s d : joined d (str_split fuel s d) = s.
Proof.
  revert s. induction fuel as [|fuel IH]; intros s; cbn [str_split]; [done|].
  destruct (str_find s d) as [n|] eqn:Hf; [|done]. apply str_find_Some in Hf as [Hs _].
  rewrite Hs at 3. rewrite <- (IH (drop (length d + n) s)) at 2.
  destruct (str_split fuel _ d) as [|w ws] eqn:Hw; [|done].
  destruct fuel; cbn [str_split] in Hw; [done|]. by destruct (str_find _ d).
Qed.

Lemma str_split_words fuel s d :
  d ≠ [] → (length s <= fuel)%nat → Forall (λ w, ¬ occurs d w) (str_split fuel s d).
Proof.
  intros Hd. revert s. induction fuel as [|fuel IH]; intros s Hl; cbn [str_split].
  { constructor; [|constructor]. intros (a & b & ->). rewrite !app_length in Hl. destruct d; [done|]. cbn in Hl. lia. }
  destruct (str_find s d) as [n|] eqn:Hf.
  2: { constructor; [by apply str_find_None | constructor]. }
  apply str_find_Some in Hf as (Hs & Hn & Hmin).
  assert (length d > 0)%nat by (destruct d; [done|cbn; lia]).
  constructor.
  - intros (a & b & Hab). rewrite Hab in Hs.
    assert (n <= length a)%nat as Hle.
    { apply (Hmin a (b ++ d ++ drop (length d + n) s)). rewrite Hs at 1. by rewrite <- !app_assoc. }
    pose proof (f_equal length Hab) as Hx. rewrite take_length, !app_length in Hx. lia.
  - apply IH. rewrite drop_length. lia.
Qed.

Lemma str_split_one fuel ws (d : Z) :
  ws ≠ [] → Forall (λ w, d ∉ w) ws → (length (joined [d] ws) <= fuel)%nat → str_split fuel (joined [d] ws) [d] = ws.
Proof.
  revert fuel. induction ws as [|w ws IH]; intros fuel Hne Hws Hf; [done|].
  inversion Hws as [|? ? Hw Hr]; subst.
  assert (∀ v : list Z, d ∉ v → ¬ occurs [d] v) as Hocc.
  { intros v Hv (a & b & ->). apply Hv. set_solver. }
  destruct ws as [|v ws].
  - cbn [joined] in *. destruct fuel; cbn [str_split]; [done|].
    assert (str_find w [d] = None) as ->; [|done]. apply str_find_None. by apply Hocc.
  - change (joined [d] (w :: v :: ws)) with (w ++ [d] ++ joined [d] (v :: ws)) in *.
    destruct fuel as [|fuel]; [rewrite !app_length in Hf; cbn in Hf; lia|]. cbn [str_split].
    destruct (str_find (w ++ [d] ++ joined [d] (v :: ws)) [d]) as [n|] eqn:Hx.
    2: { apply str_find_None in Hx. exfalso. apply Hx. by eexists _, _. }
    apply str_find_cut in Hx.
    assert (first_cut [d] (w ++ [d] ++ joined [d] (v :: ws)) w (joined [d] (v :: ws))) as Hy.
    { split; [done|]. intros a' r' He. destruct (decide (zlen w ≤ zlen a')) as [|Hlt]; [done|]. exfalso.
      apply Hw. apply (f_equal (λ l, l !! length a')) in He.
      rewrite lookup_app_l in He by lia. rewrite lookup_app_r in He by lia.
      rewrite Nat.sub_diag in He. cbn in He. by eapply elem_of_list_lookup_2. }
    destruct (first_cut_unique _ _ _ _ _ _ Hx Hy) as [H1 H2].
    rewrite H1, H2. f_equal. apply IH; [done|done|]. rewrite !app_length in Hf. cbn [length] in Hf. lia.
Qed.

Lemma lstrip_spec w : ∃ a, w = repeat 32 a ++ lstrip_spaces w ∧ head (lstrip_spaces w) ≠ Some 32.
Proof.
  induction w as [|c w (a & Hw & Hh)]; [by exists O|]. cbn [lstrip_spaces].
  destruct (Z.eqb_spec c 32) as [->|Hc].
  - exists (S a). cbn [repeat app]. split; [by f_equal | done].
  - exists O. split; [done|]. cbn. congruence.
Qed.

Lemma repeat_rev (x : Z) n : rev (repeat x n) = repeat x n.
Proof.
  induction n as [|n IH]; [done|]. cbn [repeat rev]. rewrite IH. clear IH.
  induction n as [|n IH]; [done|]. cbn [repeat app]. by rewrite IH.
Qed.

Lemma rstrip_spec w : ∃ b, w = rstrip_spaces w ++ repeat 32 b ∧ head (rev (rstrip_spaces w)) ≠ Some 32.
Proof.
  destruct (lstrip_spec (rev w)) as (b & Hb & Hh). exists b. unfold rstrip_spaces. split.
  - rewrite <- (rev_involutive w) at 1. rewrite Hb at 1. by rewrite rev_app_distr, repeat_rev.
  - by rewrite rev_involutive.
Qed.

Lemma strip_spec w : unspaced w (lstrip_spaces (rstrip_spaces w)).
Proof.
  destruct (rstrip_spec w) as (b & Hb & Hl). destruct (lstrip_spec (rstrip_spaces w)) as (a & Ha & Hh).
  split; [|split; [done|]].
  - exists a, b. rewrite app_assoc, <- Ha. done.
  - rewrite Ha, rev_app_distr, repeat_rev in Hl. destruct (rev (lstrip_spaces (rstrip_spaces w))); [done|exact Hl].
Qed.

(** *** the csv reader *)
Definition marks (s : list Z) : list (option Z) :=
  concat (map (λ c, if c =? 10 then [Some c; None] else [Some c]) s).

Lemma marks_app s t : marks (s ++ t) = marks s ++ marks t.
Proof. unfold marks. by rewrite map_app, concat_app. Qed.

Lemma feed_line b s rest : feed_from b (s ++ 10 :: rest) = marks s ++ [Some 10; None] ++ feed_from false rest.
Proof.
  revert b. induction s as [|c s IH]; intros b; cbn [app feed_from].
  - done.
  - unfold marks. cbn [map concat]. fold (marks s). destruct (c =? 10); rewrite IH; done.
Qed.

Lemma feed_end b s c : c ≠ 10 → feed_from b (s ++ [c]) = marks (s ++ [c]) ++ [None].
Proof.
  intros Hc. revert b. induction s as [|x s IH]; intros b.
  - cbn. destruct (Z.eqb_spec c 10); [done|]. done.
  - cbn [app feed_from]. unfold marks. cbn [map concat]. fold (marks (s ++ [c])).
    destruct (x =? 10); rewrite IH; done.
Qed.

Section reader.
  Context (d q : Z).
  Context (Hdq : d ≠ q) (Hd92 : d ≠ 92) (Hdn : is_newline d = false) (Hq92 : q ≠ 92) (Hqn : is_newline q = false).

  Lemma newline_not c : c ≠ 10 → c ≠ 13 → is_newline c = false.
  Proof using. intros H1 H2. unfold is_newline. by rewrite (proj2 (Z.eqb_neq _ _) H1), (proj2 (Z.eqb_neq _ _) H2). Qed.
  Lemma not_newline c : is_newline c = false → c ≠ 10 ∧ c ≠ 13.
  Proof using. unfold is_newline. rewrite orb_false_iff, !Z.eqb_neq. done. Qed.

  Lemma read_some c feed r r' :
    process_char d q r (Some c) = Ok r' → read_records d q (Some c :: feed) r = read_records d q feed r'.
  Proof using. intros H. cbn [read_records]. rewrite H. done. Qed.

  Lemma mark_plain c : c ≠ 10 → marks [c] = [Some c].
  Proof using. intros H. unfold marks. cbn. by rewrite (proj2 (Z.eqb_neq _ _) H). Qed.

  Ltac eqbs := repeat match goal with |- context [?a =? ?b] => destruct (Z.eqb_spec a b); try done; try congruence end.

  Lemma read_quoted_char c t ws w feed :
    quoted_char q c t →
    read_records d q (marks t ++ feed) (Reader InQuotedField ws w) =
    read_records d q feed (Reader InQuotedField ws (w ++ [c])).
  Proof using Hq92 Hqn.
    destruct (not_newline _ Hqn) as [Hq10 _]. intros Hc. destruct Hc as [c H1 H2| |c].
    - assert (process_char d q (Reader InQuotedField ws w) (Some c) = Ok (Reader InQuotedField ws (w ++ [c]))) as Hp.
      { cbn [process_char r_state]. eqbs. }
      destruct (Z.eq_dec c 10) as [->|Hc].
      + change (marks [10]) with [Some 10; None]. cbn [app]. by rewrite (read_some _ _ _ _ Hp).
      + rewrite mark_plain by done. cbn [app]. by rewrite (read_some _ _ _ _ Hp).
    - change [q; q] with ([q] ++ [q]). rewrite marks_app, mark_plain by done. cbn [app].
      rewrite (read_some q _ _ (Reader QuoteInQuotedField ws w)) by (cbn [process_char r_state]; eqbs).
      apply read_some. cbn [process_char r_state]. eqbs.
    - change [92; c] with ([92] ++ [c]). rewrite marks_app, mark_plain by done. cbn [app].
      rewrite (read_some 92 _ _ (Reader EscapeInQuotedField ws w)) by done.
      destruct (Z.eq_dec c 10) as [->|Hc].
      + by change (marks [10]) with [Some 10; None].
      + rewrite mark_plain by done. by apply read_some.
  Qed.

  Lemma read_quoted_chars w ts ws v feed :
    Forall2 (quoted_char q) w ts →
    read_records d q (marks (concat ts) ++ feed) (Reader InQuotedField ws v) =
    read_records d q feed (Reader InQuotedField ws (v ++ w)).
  Proof using Hq92 Hqn.
    intros H. revert v. induction H as [|c t w ts Hc _ IH]; intros v; cbn [concat].
    - by rewrite app_nil_r.
    - rewrite marks_app, <- app_assoc. rewrite (read_quoted_char c t) by done. rewrite IH. by rewrite <- app_assoc.
  Qed.

  Definition word_end (st : csv_state) : Prop := st = StartField ∨ st = InField ∨ st = QuoteInQuotedField.

  Lemma read_bare w ws v feed :
    Forall (λ c, c ≠ d ∧ c ≠ 92 ∧ c ≠ 10 ∧ c ≠ 13) w →
    read_records d q (marks w ++ feed) (Reader InField ws v) = read_records d q feed (Reader InField ws (v ++ w)).
  Proof using.
    intros H. revert v. induction H as [|c w (H1 & H2 & H3 & H4) _ IH]; intros v.
    - by rewrite app_nil_r.
    - change (c :: w) with ([c] ++ w). rewrite marks_app, mark_plain by done. cbn [app].
      rewrite (read_some c _ _ (Reader InField ws (v ++ [c]))).
      + rewrite IH. by rewrite <- app_assoc.
      + cbn. rewrite (newline_not _ H3 H4). eqbs.
  Qed.

  Lemma read_word w t ws :
    written d q w t →
    ∃ st, word_end st ∧ ∀ feed, read_records d q (marks t ++ feed) (Reader StartField ws []) =
                                read_records d q feed (Reader st ws w).
  Proof using Hq92 Hqn.
    intros [v Hv Hh|v ts Hv].
    - destruct v as [|c v]; [exists StartField; split; [by left | done]|].
      exists InField. split; [by right; left|]. intros feed. inversion Hv as [|? ? (H1 & H2 & H3 & H4) Hr]; subst.
      change (c :: v) with ([c] ++ v). rewrite marks_app, mark_plain by done. cbn [app].
      rewrite (read_some c _ _ (Reader InField ws [c])).
      + by rewrite (read_bare v).
      + cbn in Hh |- *. rewrite (newline_not _ H3 H4). assert (c ≠ q) by congruence. eqbs.
    - exists QuoteInQuotedField. split; [by right; right|]. intros feed.
      destruct (not_newline _ Hqn) as [Hq10 Hq13].
      change (q :: concat ts ++ [q]) with ([q] ++ concat ts ++ [q]). rewrite !marks_app, !mark_plain by done.
      rewrite <- !app_assoc. cbn [app].
      rewrite (read_some q _ _ (Reader InQuotedField ws [])) by (cbn; rewrite Hqn; eqbs).
      rewrite (read_quoted_chars v ts) by done. cbn [app].
      apply read_some. cbn. eqbs.
  Qed.

  Lemma end_delim st ws w feed :
    word_end st →
    read_records d q (Some d :: feed) (Reader st ws w) = read_records d q feed (Reader StartField (ws ++ [w]) []).
  Proof using Hdq Hd92 Hdn.
    intros [-> | [-> | ->]]; apply read_some; cbn; rewrite ?Hdn; eqbs.
  Qed.

  Lemma read_joined ws ts done_words :
    Forall2 (written d q) ws ts → ws ≠ [] →
    ∃ st ws' w, word_end st ∧ ws' ++ [w] = done_words ++ ws ∧
      ∀ feed, read_records d q (marks (joined [d] ts) ++ feed) (Reader StartField done_words []) =
              read_records d q feed (Reader st ws' w).
  Proof using Hdq Hd92 Hdn Hq92 Hqn.
    intros H. revert done_words. induction H as [|w t ws ts Hw Hr IH]; intros dw Hne; [done|].
    destruct (read_word w t dw Hw) as (st & Hst & Hrd).
    destruct Hr as [|w' t' ws ts Hw' Hr].
    - exists st, dw, w. split; [done|]. split; [done|]. done.
    - destruct (IH (dw ++ [w])) as (st' & ws' & w'' & Hst' & Hws & Hrd'); [done|].
      exists st', ws', w''. split; [done|]. split; [rewrite Hws; by rewrite <- app_assoc|]. intros feed.
      change (joined [d] (t :: t' :: ts)) with (t ++ [d] ++ joined [d] (t' :: ts)).
      destruct (not_newline _ Hdn) as [Hd10 _].
      rewrite !marks_app, mark_plain, <- !app_assoc by done. rewrite Hrd. cbn [app].
      rewrite end_delim by done. apply Hrd'.
  Qed.

  Lemma joined_first ts ws :
    Forall2 (written d q) ws ts → joined [d] ts ≠ [] → ∃ c l, joined [d] ts = c :: l ∧ is_newline c = false.
  Proof using Hdn Hqn.
    intros H Hne. destruct H as [|w t ws ts Hw Hr]; [done|].
    assert (∀ rest, t ++ rest ≠ [] → (t = [] → ∃ c l, rest = c :: l ∧ is_newline c = false) →
                    ∃ c l, t ++ rest = c :: l ∧ is_newline c = false) as Hgo.
    { intros rest Hn Hrest. destruct Hw as [v Hv Hh|v us Hv].
      - destruct v as [|c v]; [by apply Hrest|]. exists c, (v ++ rest). split; [done|].
        inversion Hv as [|? ? (H1 & H2 & H3 & H4)]; subst. by apply newline_not.
      - by eexists _, _. }
    destruct ts as [|t' ts].
    - cbn [joined] in *. rewrite <- (app_nil_r t). apply Hgo; [by rewrite app_nil_r|]. intros ->. done.
    - change (joined [d] (t :: t' :: ts)) with (t ++ [d] ++ joined [d] (t' :: ts)) in *.
      apply Hgo; [done|]. intros _. by eexists _, _.
  Qed.

  Lemma start_record c feed :
    is_newline c = false →
    read_records d q (Some c :: feed) (Reader StartRecord [] []) = read_records d q (Some c :: feed) (Reader StartField [] []).
  Proof using. intros H. cbn [read_records process_char r_state]. by rewrite H. Qed.

  Lemma read_line ws line :
    line_of d q ws line →
    ∃ st ws' w, word_end st ∧ ws' ++ [w] = ws ∧
      ∀ feed, read_records d q (marks line ++ feed) (Reader StartRecord [] []) =
              read_records d q feed (Reader st ws' w).
  Proof using Hdq Hd92 Hdn Hq92 Hqn.
    intros (ts & Hts & Hws & -> & Hne).
    destruct (read_joined ws ts [] Hts Hws) as (st & ws' & w & H1 & H2 & H3).
    exists st, ws', w. split; [done|]. split; [done|]. intros feed. rewrite <- H3.
    destruct (joined_first ts ws Hts Hne) as (c & l & -> & Hc).
    change (c :: l) with ([c] ++ l). destruct (not_newline _ Hc) as [Hc10 _].
    rewrite marks_app, mark_plain by done. cbn [app]. by apply start_record.
  Qed.

  Lemma line_feed ws line rest :
    line_of d q ws line →
    csv_records d q (line ++ 10 :: rest) = res_map (cons ws) (csv_records d q rest).
  Proof using Hdq Hd92 Hdn Hq92 Hqn.
    intros H. unfold csv_records. rewrite feed_line.
    destruct (read_line _ _ H) as (st & ws' & w & H1 & H2 & H3). rewrite H3. subst ws.
    assert (process_char d q (Reader st ws' w) (Some 10) = Ok (Reader EatCrnl (ws' ++ [w]) [])) as Hp.
    { destruct (not_newline _ Hdn) as [Hd10 _]. destruct (not_newline _ Hqn) as [Hq10 _].
      destruct H1 as [-> | [-> | ->]]; cbn [process_char r_state]; [done|done|].
      rewrite (proj2 (Z.eqb_neq 10 q)), (proj2 (Z.eqb_neq 10 d)) by congruence. done. }
    cbn [app]. by rewrite (read_some _ _ _ _ Hp).
  Qed.

  Lemma line_last ws line : line_of d q ws line → ∃ l c, line = l ++ [c] ∧ c ≠ 10.
  Proof using Hdn Hqn.
    destruct (not_newline _ Hdn) as [Hd10 _]. destruct (not_newline _ Hqn) as [Hq10 _].
    intros (ts & Hts & Hws & -> & Hne). clear Hws.
    induction Hts as [|w t ws ts Hw Hr IH]; [done|].
    assert (t ≠ [] → ∃ l c, t = l ++ [c] ∧ c ≠ 10) as Hlast.
    { intros Ht. destruct Hw as [v Hv _|v us Hv].
      - destruct v as [|c v _] using rev_ind; [done|]. exists v, c. split; [done|].
        apply list.Forall_app in Hv as [_ Hv]. inversion Hv; subst. naive_solver.
      - exists (q :: concat us), q. done. }
    destruct ts as [|t' ts]; [by apply Hlast|].
    change (joined [d] (t :: t' :: ts)) with (t ++ [d] ++ joined [d] (t' :: ts)) in *.
    destruct (decide (joined [d] (t' :: ts) = [])) as [->|Hn].
    - exists t, d. by rewrite app_nil_r.
    - destruct (IH Hn) as (l & c & -> & Hc). exists (t ++ [d] ++ l), c. by rewrite <- !app_assoc.
  Qed.

  Lemma line_alone ws line : line_of d q ws line → csv_records d q line = Ok [ws].
  Proof using Hdq Hd92 Hdn Hq92 Hqn.
    intros H. destruct (line_last _ _ H) as (l & c & Hl & Hc). unfold csv_records.
    destruct (read_line _ _ H) as (st & ws' & w & H1 & H2 & H3). rewrite Hl in *.
    rewrite feed_end by done. rewrite H3. subst ws. destruct H1 as [-> | [-> | ->]]; done.
  Qed.

  Lemma lines_read records lines :
    Forall2 (line_of d q) records lines → csv_records d q (concat (map (λ l, l ++ [10]) lines)) = Ok records.
  Proof using Hdq Hd92 Hdn Hq92 Hqn.
    induction 1 as [|ws line records lines H _ IH]; [done|]. cbn [map concat]. rewrite <- app_assoc.
    change ([10] ++ concat (map (λ l, l ++ [10]) lines)) with (10 :: concat (map (λ l, l ++ [10]) lines)).
    rewrite (line_feed ws) by done. by rewrite IH.
  Qed.
End reader.

(** *** TextEscape *)
Lemma text_escape_ok o c qs d strip s :
  brackets_ok o c qs → text_escape o c (Some qs) d strip s =
  match qs with [] => if strip then call_2 d s else call_1 d s | _ => call_3 d qs s end.
Proof.
  unfold text_escape, brackets_ok. intros H. destruct o as [o|], c as [c|]; try done.
  - apply str_find_None in H. by rewrite H.
Qed.

Lemma lines_words o c d q strip ws line records lines :
  good_marks d q → brackets_ok o c [q] → line_of d q ws line → Forall2 (line_of d q) records lines →
  text_escape o c (Some [q]) [d] strip line = Ok ws ∧
  text_escape o c (Some [q]) [d] strip (concat (map (λ l, l ++ [10]) (line :: lines))) = Ok ws.
Proof.
  intros (H1 & H2 & H3 & H4 & H5 & H6 & H7) Hm Hl Hls. rewrite !text_escape_ok by done. cbn [call_3].
  pose proof (newline_not _ H3 H4). pose proof (newline_not _ H6 H7). split.
  - by rewrite (line_alone d q) with (ws := ws).
  - by rewrite (lines_read d q) with (records := ws :: records) by (try done; by constructor).
Qed.

Lemma line_exists d q ws : ws ≠ [] → ∃ line, line_of d q ws line.
Proof.
  intros Hne.
  set (t := λ w : list Z, q :: concat (map (λ c, [92; c]) w) ++ [q]).
  exists (joined [d] (map t ws)). exists (map t ws). split_and!; [|done|done|].
  - clear Hne. induction ws as [|w ws IH]; constructor; [|done]. apply in_quotes. clear.
    induction w; constructor; [constructor|done].
  - destruct ws as [|w [|v ws]]; done.
Qed.

Lemma call_1_split d s :
  d ≠ [] → ∃ ws, call_1 d s = Ok ws ∧ joined d ws = s ∧ Forall (λ w, ¬ occurs d w) ws.
Proof.
  intros Hd. exists (str_split (length s) s d). split; [by destruct d|]. split; [apply str_split_joined|].
  by apply str_split_words.
Qed.

Lemma call_2_split d s :
  d ≠ [] → ∃ ws ts, call_2 d s = Ok ts ∧ joined d ws = s ∧ Forall (λ w, ¬ occurs d w) ws ∧ Forall2 unspaced ws ts.
Proof.
  intros Hd. destruct (call_1_split d s Hd) as (ws & H1 & H2 & H3).
  exists ws, (map (λ w, lstrip_spaces (rstrip_spaces w)) ws). unfold call_2. rewrite H1. split_and!; try done.
  clear. induction ws; constructor; [apply strip_spec|done].
Qed.

Lemma no_quotes o c q d strip s :
  q = None ∨ q = Some [] ∧ o = None ∧ c = None →
  text_escape o c q d strip s = if strip then call_2 d s else call_1 d s.
Proof. by intros [-> | (-> & -> & ->)]. Qed.

Lemma words_back o c q d ws :
  q = None ∨ q = Some [] ∧ o = None ∧ c = None →
  ws ≠ [] → Forall (λ w, d ∉ w) ws → text_escape o c q [d] false (joined [d] ws) = Ok ws.
Proof.
  intros Hq Hne Hws. rewrite no_quotes by done. cbn [call_1]. by rewrite str_split_one.
Qed.

Lemma get_delimiter_spec order lines :
  order ≡ₚ separators →
  match get_delimiter order lines with
  | Ok c => chief_separator (join_lines (take 12 lines)) c ∨ blank_separator (join_lines (take 12 lines)) c
  | Err e => e = ValueError ∧
      ∀ c, ¬ chief_separator (join_lines (take 12 lines)) c ∧ ¬ blank_separator (join_lines (take 12 lines)) c
  end.
Proof.
  intros Ho. unfold get_delimiter. set (s := join_lines (take 12 lines)).
  destruct (detect_seperator order s) as [[c|]|e] eqn:Hd; cbn.
  - pose proof (detect_spec order s Ho) as H. rewrite Hd in H. exact H.
  - split; [done|]. intros c. split; intros Hc.
    + assert (detect_seperator order s = Ok (Some c)) by (apply detect_of; auto). congruence.
    + assert (detect_seperator order s = Ok (Some c)) by (apply detect_of; auto). congruence.
  - split.
    + pose proof (detect_spec order s Ho) as H. rewrite Hd in H. destruct e; naive_solver.
    + intros c. split; intros Hc; (assert (detect_seperator order s = Ok (Some c)) by (apply detect_of; auto); congruence).
Qed.

(** *** every text but the empty one has a first record *)
Definition escaped_kept (r : csv_reader) : Prop := r_state r = AfterEscapedCrnl → r_word r ≠ [].

Lemma process_kept d q r c r' : escaped_kept r → process_char d q r c = Ok r' → escaped_kept r'.
Proof.
  intros Hk. destruct r as [st ws w]. unfold escaped_kept in *. cbn [r_state r_word] in *.
  destruct st; cbn [process_char r_state]; destruct c as [x|]; unfold start_field, in_field, add_char, save_word, to_state; cbn;
    repeat case_match; intros [= <-]; cbn; intros Hs; try done; try (by apply Hk); by destruct w.
Qed.

Lemma read_some_record d q feed r : escaped_kept r → read_records d q (feed ++ [None]) r ≠ Ok [].
Proof.
  revert r. induction feed as [|c feed IH]; intros r Hk.
  - cbn [app read_records]. destruct (process_char d q r None) as [r'|e] eqn:Hp; [|done]. cbn.
    destruct r as [st ws w]. unfold escaped_kept in Hk. cbn in Hk.
    destruct st; cbn in Hp; injection Hp as <-; cbn; try done; destruct w; try done.
    by specialize (Hk eq_refl).
  - cbn [app read_records]. destruct (process_char d q r c) as [r'|e] eqn:Hp; [|done]. cbn.
    pose proof (process_kept _ _ _ _ _ Hk Hp) as Hk'.
    destruct c as [x|]; [by apply IH|].
    destruct (r_state r'); try (by apply IH). by destruct (read_records d q (feed ++ [None]) _).
Qed.

Lemma feed_ends b s : (b = true ∨ s ≠ []) → ∃ feed, feed_from b s = feed ++ [None].
Proof.
  revert b. induction s as [|c s IH]; intros b Hb; cbn [feed_from].
  { destruct Hb as [-> |]; [|done]. by exists []. }
  destruct (c =? 10).
  - destruct s as [|x s]; [by exists [Some c]|]. destruct (IH false) as [f ->]; [by right|]. by exists (Some c :: None :: f).
  - destruct (IH true) as [f ->]; [by left|]. by exists (Some c :: f).
Qed.

Lemma process_error d q r c e : process_char d q r c = Err e → e = OtherError.
Proof. unfold process_char. repeat case_match; intros [= <-]; done. Qed.

Lemma read_error d q feed r e : read_records d q feed r = Err e → e = OtherError.
Proof.
  revert r e. induction feed as [|c feed IH]; intros r e; cbn [read_records].
  - destruct (r_state r); try done; destruct (_ || _); done.
  - destruct (process_char d q r c) as [r'|e'] eqn:Hp; cbn.
    + destruct c as [x|]; [by apply IH|].
      destruct (r_state r'); try (by apply IH). destruct (read_records d q feed _) as [l|e''] eqn:Hr; [done|].
      intros [= <-]. by eapply IH.
    + intros [= <-]. by eapply process_error.
Qed.

Lemma empty_line o c d q strip s :
  brackets_ok o c [q] → (text_escape o c (Some [q]) [d] strip s = Err IndexError ↔ s = []).
Proof.
  intros Hm. rewrite text_escape_ok by done. cbn [call_3]. split; [|by intros ->].
  intros H. destruct (decide (s = [])) as [|Hne]; [done|]. exfalso. unfold csv_records in H.
  destruct (feed_ends false s) as [feed Hf]; [by right|]. rewrite Hf in H.
  destruct (read_records d q (feed ++ [None]) _) as [[|w ws]|e] eqn:Hr; cbn in H; [|done|].
  - by apply (read_some_record d q feed) in Hr.
  - apply read_error in Hr. subst e. done.
Qed.

(** *** the statements *)
Lemma split_spec text sequence :
  match split_by_sequence text sequence with
  | Ok chunks => leftmost sequence chunks text ∧ glued sequence chunks text
  | Err e => e = ValueError ∧ ¬ ∃ chunks, glued sequence chunks text
  end.
Proof.
  destruct (split_by_sequence text sequence) as [chunks|e] eqn:Hs.
  - split; [by apply split_leftmost | by apply split_glued].
  - by apply split_error.
Qed.

Lemma leftmost_unique text sequence chunks chunks' :
  leftmost sequence chunks text → leftmost sequence chunks' text → chunks = chunks'.
Proof. rewrite <- !split_leftmost. congruence. Qed.

Lemma escape_split o c q d s :
  q = None ∨ q = Some [] ∧ o = None ∧ c = None → d ≠ [] →
  ∃ ws, text_escape o c q d false s = Ok ws ∧ joined d ws = s ∧ Forall (λ w, ¬ occurs d w) ws.
Proof. intros Hq Hd. rewrite no_quotes by done. by apply call_1_split. Qed.

Lemma escape_strip o c q d s :
  q = None ∨ q = Some [] ∧ o = None ∧ c = None → d ≠ [] →
  ∃ ws ts, text_escape o c q d true s = Ok ts ∧ joined d ws = s ∧ Forall (λ w, ¬ occurs d w) ws ∧
           Forall2 unspaced ws ts.
Proof. intros Hq Hd. rewrite no_quotes by done. by apply call_2_split. Qed.

Lemma quoted_case :
  good_marks 44 34 ∧ brackets_ok (Some [40; 123; 91]) (Some [93; 125; 41]) [34] ∧
  line_of 44 34 [[97; 34]; [98; 44; 99]] [97; 34; 44; 34; 98; 44; 92; 99; 34] ∧
  text_escape (Some [40; 123; 91]) (Some [93; 125; 41]) (Some [34]) [44] false [97; 34; 44; 34; 98; 44; 92; 99; 34]
    = Ok [[97; 34]; [98; 44; 99]].
Proof.
  split_and!; [by unfold good_marks|apply str_find_None; by vm_compute| |by vm_compute].
  exists [[97; 34]; [34; 98; 44; 92; 99; 34]]. split_and!; try done.
  constructor; [|constructor; [|constructor]].
  - apply bare; [repeat constructor; done | done].
  - apply (in_quotes 44 34 [98; 44; 99] [[98]; [44]; [92; 99]]).
    constructor; [by constructor|]. constructor; [by constructor|]. constructor; [|constructor]. constructor.
Qed.

Lemma brackets_cut :
  ¬ ∀ o c q d s w, brackets_ok (Some [o]) (Some [c]) [q] → good_marks d q → d ≠ o → d ≠ c →
      s = [o] ++ w ++ [c] → Forall (λ x, x ≠ o ∧ x ≠ c ∧ x ≠ q ∧ x ≠ 92 ∧ x ≠ 10 ∧ x ≠ 13) w →
      text_escape (Some [o]) (Some [c]) (Some [q]) [d] false s = Ok [s].
Proof.
  intros H. specialize (H 40 41 34 44 [40; 97; 44; 98; 41] [97; 44; 98]).
  assert (text_escape (Some [40]) (Some [41]) (Some [34]) [44] false [40; 97; 44; 98; 41] = Ok [[40; 97; 44; 98; 41]]) as Hx.
  { apply H; try done; [apply str_find_None; by vm_compute|repeat constructor; done]. }
  by vm_compute in Hx.
Qed.

Lemma quote_no_strip :
  ¬ ∀ d q s ts, good_marks d q → text_escape None None (Some [q]) [d] true s = Ok ts →
      Forall (λ t, head t ≠ Some 32) ts.
Proof.
  intros H. assert (Forall (λ t, head t ≠ Some 32) [[97]; [32; 98]]) as Hx.
  { apply (H 44 34 [97; 44; 32; 98]); [by unfold good_marks | by vm_compute]. }
  rewrite !list.Forall_cons in Hx. destruct Hx as (_ & Hx & _). done.
Qed.

(** A quote that is not closed ends with the text. *)
Lemma read_unclosed d q b v w :
  Forall (λ c, c ≠ q ∧ c ≠ 92) w →
  read_records d q (feed_from b w) (Reader InQuotedField [] v) = Ok [[v ++ w]].
Proof.
  revert b v. induction w as [|c w IH]; intros b v H.
  - rewrite app_nil_r. destruct b; cbn; by rewrite orb_true_r.
  - apply list.Forall_cons in H as [[H1 H2] H]. replace (v ++ c :: w) with ((v ++ [c]) ++ w) by (by rewrite <- app_assoc).
    assert (Hp : process_char d q (Reader InQuotedField [] v) (Some c) = Ok (Reader InQuotedField [] (v ++ [c]))).
    { cbn. by rewrite (proj2 (Z.eqb_neq _ _) H1), (proj2 (Z.eqb_neq _ _) H2). }
    cbn [feed_from]. destruct (c =? 10); rewrite (read_some _ _ _ _ _ _ Hp); [|by apply IH].
    cbn [read_records process_char r_state res_bind]. by apply IH.
Qed.
Lemma unclosed_quote o c d q strip w :
  good_marks d q → brackets_ok o c [q] → Forall (λ x, x ≠ q ∧ x ≠ 92) w →
  text_escape o c (Some [q]) [d] strip (q :: w) = Ok [w].
Proof.
  intros (H1 & H2 & H3 & H4 & H5 & H6 & H7) Hm Hw. rewrite text_escape_ok by done. cbn [call_3]. unfold csv_records.
  cbn [feed_from]. rewrite (proj2 (Z.eqb_neq _ _) H6).
  rewrite (read_some d q q _ _ (Reader InQuotedField [] [])).
  - by rewrite read_unclosed.
  - cbn. rewrite (newline_not _ H6 H7). by rewrite Z.eqb_refl.
Qed.
