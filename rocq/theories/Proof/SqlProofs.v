(** Reading what [to_sql] writes. *)
From Coq Require Import String.
From Verif.Model Require Import ToSql.
From Coq Require Import ZifyBool.
From Verif.Proof Require Import ExportProofs.
Local Open Scope string_scope.
Local Open Scope list_scope.
Local Open Scope Z_scope.

Lemma chars_of s : bytes_of s = chars s.
Proof. by induction s as [|a s IH]; [|cbn; rewrite IH]. Qed.

(** ** Tokens *)
Definition ends (c : Z) : Prop := c = 32 ∨ c = 44 ∨ c = 41 ∨ c = 59.
Fixpoint run (m : lexer) (w : list Z) : option lexer :=
  match w with
  | [] => Some m
  | c :: w => match goes_on m c with Some m' => run m' w | None => None end
  end.
Lemma run_tokens w s : ∀ m m', run m w = Some m' → tokens m (w ++ s) = tokens m' s.
Proof.
  induction w as [|c w IH]; intros m m' H; [by injection H as ->|]. cbn [run] in H. cbn [app tokens].
  destruct (goes_on m c); [|done]. by apply IH.
Qed.
Lemma flush m a c rest : goes_on m c = None → pending m = Some a →
  tokens m (c :: rest) = option_map (app a) (tokens Between (c :: rest)).
Proof.
  intros H1 H2. cbn [tokens]. rewrite H1, H2. cbn [goes_on pending]. destruct (begins c) as [[b m']|]; [|done].
  by destruct (tokens m' rest).
Qed.
Lemma ends_not m c a : ends c → pending m = Some a → goes_on m c = None.
Proof.
  intros Hc Hm. destruct m as [|w|w|s|s]; try done; cbn [goes_on]; destruct Hc as [->|[->|[->| ->]]]; try done; cbn; try done; discriminate.
Qed.

(** [s], with a token's end behind it, reads as the tokens [l] *)
Definition reads (s : list Z) (l : list token) : Prop :=
  ∀ c rest, ends c → tokens Between (s ++ c :: rest) = option_map (app l) (tokens Between (c :: rest)).

Lemma tokens_begin c s b m : begins c = Some (b, m) → tokens Between (c :: s) = option_map (app b) (tokens m s).
Proof. intros H. cbn [tokens goes_on pending]. by rewrite H. Qed.
Lemma reads_run s b m c w l : begins c = Some (b, m) → s = c :: w → ∀ m', run m w = Some m' → ∀ a, pending m' = Some a → l = b ++ a → reads s l.
Proof.
  intros Hb -> m' Hr a Ha -> e rest He. rewrite <- app_comm_cons, (tokens_begin _ _ _ _ Hb), (run_tokens _ _ _ _ Hr).
  rewrite (flush m' a) by (done || by eapply ends_not). generalize (tokens Between (e :: rest)) as T. intros [T|]; cbn; [by rewrite app_assoc|done].
Qed.
Lemma reads_nil : reads [] [].
Proof. intros c rest _. cbn [app]. by destruct (tokens Between (c :: rest)). Qed.
Lemma reads_space s l : reads s l → reads (32 :: s) l.
Proof.
  intros H c rest Hc. rewrite <- app_comm_cons, (tokens_begin 32 _ [] Between), H by done. by destruct (tokens Between (c :: rest)).
Qed.
Lemma reads_sign e s l : e ∈ [40; 41; 44; 59; 45] → reads s l → reads (e :: s) (Sign e :: l).
Proof.
  intros He H c rest Hc. rewrite <- app_comm_cons, (tokens_begin e _ [Sign e] Between), H by (done || (revert He; rewrite !elem_of_cons, elem_of_nil; by intros [->|[->|[->|[->|[->|[]]]]]])).
  by destruct (tokens Between (c :: rest)).
Qed.
Lemma reads_app s1 l1 e s2 l2 : ends e → reads s1 l1 → reads (e :: s2) l2 → reads (s1 ++ e :: s2) (l1 ++ l2).
Proof.
  intros He H1 H2 c rest Hc. rewrite <- app_assoc. cbn [app]. rewrite H1 by done. change (e :: s2 ++ c :: rest) with ((e :: s2) ++ c :: rest).
  rewrite H2 by done. destruct (tokens Between (c :: rest)); [|done]. cbn. by rewrite app_assoc.
Qed.
Lemma reads_all s l : reads s l → tokens Between (s ++ [59]) = Some (l ++ [Sign 59]).
Proof. intros H. rewrite (H 59 []); [done|by right; right; right]. Qed.

Lemma reads_word c w : starts_word c = true → Forall (λ c, in_word c = true) w → reads (c :: w) [Word (c :: w)].
Proof.
  intros Hc Hw. assert (∀ acc, run (InWord acc) w = Some (InWord (rev w ++ acc))) as R.
  { induction Hw as [|d w Hd _ IH]; intros acc; [done|]. cbn [run goes_on]. rewrite Hd, IH. cbn [rev]. by rewrite <- app_assoc. }
  eapply reads_run; [|done|apply R|done|].
  - unfold begins. unfold starts_word in *. unfold is_digit. destruct ((c =? 32) || (c =? 9) || (c =? 10) || (c =? 13)) eqn:E1; [lia|].
    destruct ((48 <=? c) && (c <=? 57)) eqn:E2; [lia|]. rewrite Hc. done.
  - cbn [app]. rewrite rev_app_distr, rev_involutive. done.
Qed.
Lemma reads_text u : 39 ∉ u → reads (39 :: u ++ [39]) [Text u].
Proof.
  intros H. assert (∀ acc, run (InText acc) (u ++ [39]) = Some (Behind (rev u ++ acc))) as R.
  { induction u as [|d u IH]; intros acc; [done|]. cbn [app run goes_on]. assert ((d =? 39) = false) as ->.
    { apply not_elem_of_cons in H. lia. } rewrite IH by (apply not_elem_of_cons in H; tauto). cbn [rev]. by rewrite <- app_assoc. }
  eapply (reads_run _ [] (InText []) 39); [done|done|apply R|done|]. cbn [app]. by rewrite app_nil_r, rev_involutive.
Qed.
Lemma digit_is c : digit c → is_digit c = true.
Proof. unfold digit, is_digit. lia. Qed.
Lemma run_digits w acc : Forall digit w → run (InNumber acc) w = Some (InNumber (rev w ++ acc)).
Proof.
  intros H. revert acc. induction H as [|d w Hd _ IH]; intros acc; [done|]. cbn [run goes_on]. rewrite (digit_is _ Hd). cbn [orb].
  rewrite IH. cbn [rev]. by rewrite <- app_assoc.
Qed.
Lemma run_app m u v m' : run m u = Some m' → run m (u ++ v) = run m' v.
Proof. revert m. induction u as [|c u IH]; intros m H; [by injection H as ->|]. cbn [run app] in *. destruct (goes_on m c); [|done]. by apply IH. Qed.
Lemma reads_number c w w' : digit c → run (InNumber [c]) w = Some (InNumber w') → rev w' = c :: w → reads (c :: w) [Number (c :: w)].
Proof.
  intros Hc Hr E. eapply (reads_run _ [] (InNumber [c])); [|done|exact Hr|done|cbn [app]; by rewrite E].
  unfold begins. rewrite (digit_is _ Hc). unfold digit in Hc. assert (((c =? 32) || (c =? 9) || (c =? 10) || (c =? 13)) = false) as -> by lia. done.
Qed.
Lemma reads_digits w : w ≠ [] → Forall digit w → reads w [Number w].
Proof.
  intros Hn H. destruct w as [|c w]; [done|]. apply list.Forall_cons in H as [Hc Hw].
  eapply reads_number; [done|by apply run_digits|]. by rewrite rev_app_distr, rev_involutive.
Qed.

(** ** Joined *)
Fixpoint tok_join (ls : list (list token)) : list token :=
  match ls with
  | [] => []
  | [x] => x
  | x :: ls => x ++ Sign 44 :: tok_join ls
  end.
Lemma reads_comma_join ss ls : Forall2 reads ss ls → reads (comma_join ss) (tok_join ls).
Proof.
  induction 1 as [|s l ss ls H HF IH]; [apply reads_nil|]. destruct HF as [|s' l' ss ls H' HF]; [done|].
  change (comma_join (s :: s' :: ss)) with (s ++ 44 :: 32 :: comma_join (s' :: ss)).
  change (tok_join (l :: l' :: ls)) with (l ++ Sign 44 :: tok_join (l' :: ls)).
  apply reads_app; [by right; left|done|]. apply reads_sign; [set_solver|]. by apply reads_space.
Qed.
Lemma reads_plain_join ss ls : Forall2 reads ss ls → reads (plain_join ss) (tok_join ls).
Proof.
  induction 1 as [|s l ss ls H HF IH]; [apply reads_nil|]. destruct HF as [|s' l' ss ls H' HF]; [done|].
  change (plain_join (s :: s' :: ss)) with (s ++ 44 :: plain_join (s' :: ss)).
  change (tok_join (l :: l' :: ls)) with (l ++ Sign 44 :: tok_join (l' :: ls)).
  apply reads_app; [by right; left|done|]. by apply reads_sign; [set_solver|].
Qed.

Lemma read_list_spec {X A} (elem : list token → option (A * list token)) (f : X → list token) (g : X → A) stop xs : ∀ n l,
  stop ≠ 44 → xs ≠ [] → (length xs <= n)%nat → (∀ x, x ∈ xs → ∀ l, elem (f x ++ l) = Some (g x, l)) →
  read_list elem stop n (tok_join (map f xs) ++ Sign stop :: l) = Some (map g xs, l).
Proof.
  induction xs as [|x xs IH]; intros n l Hs Hne Hn He; [done|]. destruct n as [|n]; [cbn in Hn; lia|]. destruct xs as [|y xs].
  - cbn [map tok_join read_list]. rewrite He by left. by rewrite Z.eqb_refl.
  - change (tok_join (map f (x :: y :: xs))) with (f x ++ Sign 44 :: tok_join (map f (y :: xs))).
    rewrite <- app_assoc. cbn [read_list]. rewrite He by left. cbn [app]. assert ((44 =? stop) = false) as -> by lia. rewrite Z.eqb_refl.
    rewrite (IH n l); [done|done|done|cbn in *; lia|]. intros z Hz. apply He. by right.
Qed.
Lemma tok_join_length {X} (f : X → list token) xs : (length xs <= S (length (tok_join (map f xs))))%nat.
Proof.
  induction xs as [|x xs IH]; [cbn; lia|]. destruct xs as [|y xs]; [cbn; lia|].
  change (tok_join (map f (x :: y :: xs))) with (f x ++ Sign 44 :: tok_join (map f (y :: xs))). rewrite app_length. cbn [length] in *. lia.
Qed.

(** ** Cells *)
Section Cells.
  Context (printable : Z → bool) (fshow : Z → list Z) (Hp : ∀ c, printable c = true → 32 <= c).

  Definition signed (t : list Z) : list token := match t with 45 :: w => [Sign 45; Number w] | _ => [Number t] end.
  Definition cell_tokens (c : cell) : list token :=
    match c with
    | CBool b => [Word (if b then bytes_of "True" else bytes_of "False")]
    | CInt n => signed (python_int n)
    | CFloat x => signed (fshow x)
    | CStr s => [Text s]
    | _ => []
    end.
  Lemma plain_repr s : plain_text printable s → repr_str printable s = 39 :: s ++ [39].
  Proof.
    intros H. unfold repr_str. assert (quote_of s = 39) as ->.
    { unfold quote_of. assert (existsb (Z.eqb 39) s = false) as ->; [|done]. apply not_true_is_false. intros (c & Hc & E)%existsb_exists.
      unfold plain_text in H. rewrite list.Forall_forall in H. apply elem_of_list_In, H in Hc. lia. }
    f_equal. f_equal. induction H as [|c s (H1 & H2 & H3) _ IH]; [done|]. cbn [map concat]. rewrite IH. pose proof (Hp c H1). unfold escape.
    assert (((c =? 39) || (c =? 92)) = false) as -> by lia. assert ((c =? 9) = false) as -> by lia. assert ((c =? 10) = false) as -> by lia.
    assert ((c =? 13) = false) as -> by lia. by rewrite H1.
  Qed.
  Lemma signed_digits w : w ≠ [] → Forall digit w → signed w = [Number w].
  Proof. intros Hn H. destruct w as [|c w]; [done|]. apply list.Forall_cons in H as [Hc _]. unfold digit in Hc. unfold signed. destruct c as [|p|p]; try done. repeat (destruct p as [p|p|]; try done; try lia). Qed.
  Lemma reads_int n : reads (python_int n) (signed (python_int n)).
  Proof.
    destruct (python_int_dec n) as [(H1 & H2 & H3 & H4) _]. unfold python_int. set (w := dec _ _) in *. destruct (n <? 0).
    - cbn [app signed]. apply reads_sign; [set_solver|]. by apply reads_digits.
    - cbn [app]. rewrite signed_digits by done. by apply reads_digits.
  Qed.
  Lemma reads_real t : real_numeral t → reads t (signed t).
  Proof.
    intros (sign & a & b & e & Hsign & Ha & Da & Db & He & Hbe & ->). set (w := a ++ (if decide (b = []) then [] else 46 :: b) ++ e).
    assert (reads w [Number w] ∧ signed w = [Number w]) as [R S].
    { destruct a as [|c a]; [done|]. apply list.Forall_cons in Da as [Hc Da]. subst w. cbn [app]. split.
      - set (b' := if decide (b = []) then [] else 46 :: b).
        assert (run (InNumber [c]) (a ++ b' ++ e) = Some (InNumber (rev (a ++ b' ++ e) ++ [c]))) as R.
        { erewrite run_app by (by apply run_digits). assert (∀ acc, run (InNumber acc) b' = Some (InNumber (rev b' ++ acc))) as Rb.
          { intros acc. subst b'. destruct (decide (b = [])); [done|]. cbn [run goes_on]. change (is_digit 46) with false. cbn [orb Z.eqb Pos.eqb].
            rewrite run_digits by done. cbn [rev]. by rewrite <- app_assoc. }
          erewrite run_app by apply Rb.
          assert (∀ acc, run (InNumber acc) e = Some (InNumber (rev e ++ acc))) as Re.
          { intros acc. destruct He as [->|(s & ds & Hs & _ & Dd & ->)]; [done|]. change (run (InNumber acc) (101 :: s :: ds)) with (run (InNumber (101 :: acc)) (s :: ds)).
            assert (run (InNumber (101 :: acc)) (s :: ds) = run (InNumber (s :: 101 :: acc)) ds) as -> by (by destruct Hs as [->| ->]).
            rewrite run_digits by done. cbn [rev]. by rewrite <- !app_assoc. }
          rewrite Re. f_equal. f_equal. by rewrite !rev_app_distr, <- !app_assoc. }
        eapply reads_number; [done|exact R|]. by rewrite rev_app_distr, rev_involutive.
      - unfold signed. unfold digit in Hc. destruct c as [|p|p]; try done. repeat (destruct p as [p|p|]; try done; try lia). }
    fold w. destruct Hsign as [->| ->]; [by cbn [app]; rewrite S|]. cbn [app signed]. by apply reads_sign; [set_solver|].
  Qed.

  Lemma reads_cell c : same_in_sql printable fshow c → reads (repr printable fshow c) (cell_tokens c).
  Proof.
    intros H. destruct c as [|b|n|x|s|d|us|d us]; try done; cbn [repr cell_tokens].
    - destruct b; cbn [bytes_of]; apply reads_word; try done; repeat constructor.
    - apply reads_int.
    - by apply reads_real.
    - rewrite plain_repr by done. apply reads_text. intros Hin. cbn in H. unfold plain_text in H. rewrite list.Forall_forall in H. apply H in Hin. lia.
  Qed.
  Lemma value_int n l : read_value (signed (python_int n) ++ l) = Some (SqlInt n, l).
  Proof.
    destruct (python_int_dec n) as [(H1 & H2 & H3 & H4) _]. unfold python_int. set (w := dec _ _) in *.
    assert (forallb is_digit w = true) as Hd.
    { apply forallb_forall. intros c Hc%elem_of_list_In. rewrite list.Forall_forall in H2. by apply digit_is, H2. }
    destruct (Z.ltb_spec n 0).
    - cbn [app signed read_value]. unfold number_value. rewrite Z.eqb_refl, Hd, H3. do 3 f_equal. lia.
    - cbn [app]. rewrite signed_digits by done. cbn [app read_value]. unfold number_value. rewrite Hd, H3. do 3 f_equal. lia.
  Qed.
  Lemma value_real t l : real_numeral t → read_value (signed t ++ l) = Some (SqlReal t, l).
  Proof.
    intros (sign & a & b & e & Hsign & Ha & Da & Db & He & Hbe & ->). set (w := a ++ (if decide (b = []) then [] else 46 :: b) ++ e).
    assert (forallb is_digit w = false) as Hd.
    { subst w. rewrite !forallb_app. destruct (decide (b = [])) as [Eb|Nb].
      - destruct He as [->|(s & ds & _ & _ & _ & ->)]; [destruct Hbe; done|]. cbn. by rewrite !andb_false_r.
      - cbn. by rewrite andb_false_r. }
    assert (signed w = [Number w]) as S.
    { destruct a as [|c a]; [done|]. apply list.Forall_cons in Da as [Hc Da]. subst w. cbn [app].
      unfold signed. unfold digit in Hc. destruct c as [|p|p]; try done. repeat (destruct p as [p|p|]; try done; try lia). }
    destruct Hsign as [->| ->]; cbn [app].
    - fold w. rewrite S. cbn [app read_value]. unfold number_value. by rewrite Hd.
    - fold w. cbn [signed app read_value]. unfold number_value. by rewrite Hd.
  Qed.
  Lemma value_cell c v l : same_in_sql printable fshow c → sql_of fshow c = Some v → read_value (cell_tokens c ++ l) = Some (v, l).
  Proof.
    intros H. destruct c as [|b|n|x|s|d|us|d us]; try done; intros [= <-]; cbn [cell_tokens].
    - by destruct b.
    - apply value_int.
    - by apply value_real.
    - done.
  Qed.
End Cells.
