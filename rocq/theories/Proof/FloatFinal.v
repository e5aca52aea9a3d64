(** Texts of numbers and their values. *)
From Coq Require Import Qabs.
From Verif.Proof Require Import FloatProofs FloatValues InferProofs GuessWords.
Local Open Scope Z_scope.

(** ** parseFloat *)
Definition stops (r : list Z) : Prop := ∀ c r', r = c :: r' → ¬ digit c ∧ c ≠ 95.

Lemma digits_on s : ∃ a, s = a ++ (float_digits true s).2 ∧ Forall (λ c, digit c ∨ c = 95) a.
Proof.
  induction s as [|c s (a & E & Ha)]; [by exists []|]. cbn [float_digits andb]. destruct (isDigit c) eqn:Hd.
  - apply isDigit_iff in Hd. destruct (float_digits true s) as [n r]. cbn [snd] in *. exists (c :: a).
    split; [by rewrite E|]. constructor; [by left|done].
  - destruct (Z.eqb_spec c 95) as [->|Hn].
    + exists (95 :: a). split; [cbn [app]; by rewrite <- E|]. constructor; [by right|done].
    + exists []. done.
Qed.
Lemma digits_off s : ∃ a, s = a ++ (float_digits false s).2 ∧ digit_run a ∧ ((0 < (float_digits false s).1)%nat ↔ a ≠ []).
Proof.
  destruct s as [|c s]; [exists []; split; [done|]; split; [by left|]; cbn; split; [lia|done]|].
  cbn [float_digits andb]. destruct (isDigit c) eqn:Hd.
  - apply isDigit_iff in Hd. destruct (digits_on s) as (a & E & Ha). destruct (float_digits true s) as [n r]. cbn [fst snd] in *.
    exists (c :: a). split; [by rewrite E|]. split; [right; by exists c, a|]. split; [done|lia].
  - exists []. split; [done|]. split; [by left|]. cbn. split; [lia|done].
Qed.
Lemma digits_on_stop a r : Forall (λ c, digit c ∨ c = 95) a → stops r → ∃ n, float_digits true (a ++ r) = (n, r).
Proof.
  intros Ha Hr. induction Ha as [|c a Hc _ (n & IH)].
  - destruct r as [|c r]; [by exists 0%nat|]. destruct (Hr c r eq_refl) as [H1%isDigit_false H2].
    exists 0%nat. cbn [app float_digits andb]. rewrite H1. by rewrite (proj2 (Z.eqb_neq _ _) H2).
  - cbn [app float_digits andb]. destruct (isDigit c) eqn:Hd.
    + rewrite IH. by exists (S n).
    + apply isDigit_false in Hd. destruct Hc as [Hc| ->]; [done|]. rewrite Z.eqb_refl. by exists n.
Qed.
Lemma digits_off_stop a r : digit_run a → stops r → ∃ n, float_digits false (a ++ r) = (n, r) ∧ ((0 < n)%nat ↔ a ≠ []).
Proof.
  intros [->|(d & a' & -> & Hd & Ha)] Hr.
  - exists 0%nat. split; [|split; [lia|done]]. destruct r as [|c r]; [done|]. destruct (Hr c r eq_refl) as [H1%isDigit_false _].
    cbn [app float_digits andb]. by rewrite H1.
  - destruct (digits_on_stop a' r Ha Hr) as (n & E). exists (S n). cbn [app float_digits]. apply isDigit_iff in Hd. rewrite Hd, E.
    split; [done|]. split; [done|lia].
Qed.

Lemma sign_test c : (c =? 43) || (c =? 45) = true ↔ sign_mark c.
Proof. unfold sign_mark. rewrite orb_true_iff, !Z.eqb_eq. done. Qed.
Lemma sign_split r : ∃ sg, r = sg ++ match r with c :: r' => if (c =? 43) || (c =? 45) then r' else r | [] => r end ∧ sign_text sg.
Proof.
  destruct r as [|c r]; [exists []; split; [done|by left]|]. destruct ((c =? 43) || (c =? 45)) eqn:E.
  - exists [c]. split; [done|]. right. exists c. split; [done|]. by apply sign_test.
  - exists []. split; [done|by left].
Qed.
Lemma sign_skip sg r : sign_text sg → (∀ c r', r = c :: r' → ¬ sign_mark c) →
  match sg ++ r with c :: r' => if (c =? 43) || (c =? 45) then r' else sg ++ r | [] => sg ++ r end = r.
Proof.
  intros [->|(c & -> & Hc)] Hr.
  - cbn [app]. destruct r as [|c r]; [done|]. destruct ((c =? 43) || (c =? 45)) eqn:E; [|done]. apply sign_test in E.
    by destruct (Hr c r eq_refl).
  - cbn [app]. apply sign_test in Hc. by rewrite Hc.
Qed.
Lemma run_head ds : digit_run ds → ∀ c r, ds = c :: r → digit c.
Proof. intros [->|(d & a & -> & Hd & _)] c r [=]. by subst. Qed.

Lemma exponent_ok x : float_exponent x = true ↔ exponent_text x.
Proof.
  split.
  - destruct x as [|e [|c r]]; [by left|done|]. intros H. right. cbn [float_exponent] in H.
    apply andb_true_iff in H as [He H].
    destruct (sign_split (c :: r)) as (sg & Er & Hsg). cbv beta iota in Er.
    set (r' := if (c =? 43) || (c =? 45) then r else c :: r) in *.
    destruct (digits_off r') as (a & Ea & Ha & Hn). destruct (float_digits false r') as [[|n] [|? ?]]; try done.
    cbn [fst snd] in *. rewrite app_nil_r in Ea. exists e, sg, a. subst a. split; [by rewrite <- Er|]. split.
    + unfold exponent_mark. apply orb_true_iff in He. by rewrite !Z.eqb_eq in He.
    + split; [done|]. split; [apply Hn; lia|done].
  - intros [->|(e & sg & ds & -> & He & Hsg & Hne & Hds)]; [done|].
    assert (∀ c r', ds = c :: r' → ¬ sign_mark c) as Hh.
    { intros c r' E. pose proof (run_head _ Hds c r' E). unfold digit, sign_mark in *. lia. }
    pose proof (sign_skip sg ds Hsg Hh) as Hsk.
    destruct (digits_off_stop ds [] Hds) as (n & E & Hn); [done|]. rewrite app_nil_r in E.
    destruct (sg ++ ds) as [|c r] eqn:Esd; [by apply app_nil in Esd as [_ ->]|].
    cbn [float_exponent]. rewrite Hsk, E. destruct n; [by apply Hn in Hne; lia|].
    assert ((e =? 101) || (e =? 69) = true) as -> by (apply orb_true_iff; rewrite !Z.eqb_eq; done). done.
Qed.

Lemma exponent_stops x : exponent_text x → stops x.
Proof. intros [->|(e & sg & ds & -> & He & _)] c r' [=]; subst. unfold exponent_mark, digit in *. lia. Qed.

Lemma parse_ok s : parseFloat_ok s = true ↔ simple_float s.
Proof.
  assert (∀ b, (if bool_decide (map toLower b = [110; 97; 110]) || bool_decide (map toLower b = [105; 110; 102]) then true
    else let '(kdigits, r) := float_digits false b in
      match r with
      | c :: r' => if c =? 46 then float_exponent (float_digits false r').2 else (0 <? kdigits)%nat && float_exponent r
      | [] => (0 <? kdigits)%nat
      end) = true ↔
    (map lower b = [110; 97; 110] ∨ map lower b = [105; 110; 102] ∨
     ∃ a x, digit_run a ∧ exponent_text x ∧
       (a ≠ [] ∧ b = a ++ x ∨ ∃ b', digit_run b' ∧ b = a ++ [46] ++ b' ++ x))) as Hbody.
  { intros b. rewrite map_lower.
    case_bool_decide as H1; [cbn [orb]; tauto|]. case_bool_decide as H2; [cbn [orb]; tauto|]. cbn [orb].
    split.
    - intros H. right. right. destruct (digits_off b) as (a & Ea & Ha & Hn).
      destruct (float_digits false b) as [k r]. cbn [fst snd] in *. destruct r as [|c r].
      + exists a, []. split; [done|]. split; [by left|]. left. split; [|done]. apply Hn. by apply Nat.ltb_lt.
      + destruct (Z.eqb_spec c 46) as [->|Hc].
        * destruct (digits_off r) as (b' & Eb & Hb & _). apply exponent_ok in H.
          exists a, (float_digits false r).2. split; [done|]. split; [done|]. right. exists b'. split; [done|].
          rewrite Ea. cbn [app]. by rewrite <- Eb.
        * apply andb_true_iff in H as [Hk H]. apply exponent_ok in H. exists a, (c :: r). split; [done|]. split; [done|].
          left. split; [|done]. apply Hn. by apply Nat.ltb_lt.
    - intros [H|[H|(a & x & Ha & Hx & [[Hne ->]|(b' & Hb & ->)])]]; [done|done| |].
      + destruct (digits_off_stop a x Ha (exponent_stops x Hx)) as (n & -> & Hn). apply Hn in Hne.
        apply Nat.ltb_lt in Hne. rewrite Hne. destruct x as [|c x]; [done|].
        assert (c =? 46 = false) as ->.
        { destruct Hx as [|(e & ? & ? & E & He & _)]; [done|]. injection E as -> _. unfold exponent_mark in He. lia. }
        apply exponent_ok in Hx. by rewrite Hx.
      + destruct (digits_off_stop a ([46] ++ b' ++ x) Ha) as (n & -> & Hn).
        { intros c r' [= <- <-]. unfold digit. lia. }
        cbn [app]. rewrite Z.eqb_refl. destruct (digits_off_stop b' x Hb (exponent_stops x Hx)) as (m & -> & _).
        by apply exponent_ok. }
  unfold parseFloat_ok, simple_float. split.
  - destruct (sign_split s) as (sg & Es & Hsg). destruct s as [|c s].
    + intros H. apply Hbody in H. exists [], []. split; [done|]. split; [by left|]. exact H.
    + destruct ((c =? 43) || (c =? 45)) eqn:E; intros H; apply Hbody in H.
      * exists [c], s. split; [done|]. split; [right; exists c; split; [done|by apply sign_test]|done].
      * exists [], (c :: s). split; [done|]. split; [by left|done].
  - intros (sg & body & -> & Hsg & Hb).
    assert (∀ c r', body = c :: r' → ¬ sign_mark c) as Hh.
    { intros c r' -> Hc. destruct Hb as [H|[H|(a & x & Ha & Hx & [[Hne E]|(b' & _ & E)])]].
      - cbn [map] in H. injection H as H _. unfold lower, sign_mark in *. destruct (decide _); lia.
      - cbn [map] in H. injection H as H _. unfold lower, sign_mark in *. destruct (decide _); lia.
      - destruct a as [|d a]; [done|]. injection E as <- _. pose proof (run_head _ Ha c a eq_refl). unfold digit, sign_mark in *. lia.
      - destruct a as [|d a]; [injection E as -> _; unfold sign_mark in Hc; lia|].
        injection E as <- _. pose proof (run_head _ Ha c a eq_refl). unfold digit, sign_mark in *. lia. }
    apply Hbody in Hb. destruct Hsg as [->|(c & -> & Hc)].
    + cbn [app]. destruct body as [|c r]; [exact Hb|]. destruct ((c =? 43) || (c =? 45)) eqn:E; [|exact Hb].
      apply sign_test in E. by destruct (Hh c r eq_refl).
    + cbn [app]. apply sign_test in Hc. rewrite Hc. exact Hb.
Qed.

(** ** The theorems *)
Lemma simple_spec fa checks am s v :
  inferFloat fa checks true am s = Ok v ↔ simple_float (without_blanks s) ∧ v = f_parse fa (without_blanks s).
Proof.
  unfold inferFloat. rewrite no_blanks_spec. destruct (without_blanks s) as [|c r].
  - split; [done|]. intros [H _]. apply parse_ok in H. by vm_compute in H.
  - rewrite <- parse_ok. destruct (parseFloat_ok (c :: r)); split; try done.
    + by intros [= <-].
    + by intros [_ ->].
    + by intros [].
Qed.

Lemma local_spec fa checks am s v :
  inferFloat fa checks false am s = Ok v ↔ ∃ p, local_decimal am p (without_blanks s) ∧ v = machine_value fa p.
Proof. rewrite float_local. by rewrite no_blanks_spec. Qed.

Lemma exact_spec val fa : exact_arith val fa → ∀ checks am s q,
  (∃ v, inferFloat fa checks false am s = Ok v ∧ (val v == q)%Q) ↔
  (∃ p, local_decimal am p (without_blanks s) ∧ (decimal_value p == q)%Q).
Proof.
  intros H checks am s q. split.
  - intros (v & (p & Hp & ->)%local_spec & Hq). exists p. split; [done|]. by rewrite <- (exact_value val fa H).
  - intros (p & Hp & Hq). exists (machine_value fa p). split; [apply local_spec; by exists p|].
    by rewrite (exact_value val fa H).
Qed.

Lemma local_digits am p s : local_decimal am p s →
  Forall digit (d_whole p) ∧ Forall digit (d_fraction p) ∧ ∀ neg ds, d_exponent p = Some (neg, ds) → Forall digit ds.
Proof.
  rewrite local_decimal_eq. intros (sg & u & w & _ & _ & _ & Hu & -> & _ & _ & Hw). split; [|split].
  - apply list.Forall_forall. intros c [Hc Hin]%elem_of_list_filter. rewrite list.Forall_forall in Hu.
    by destruct (Hu c Hin).
  - destruct Hw as [(_ & -> & _)|(x & _ & Hf & _)]; [constructor|done].
  - intros neg ds E. destruct Hw as [(_ & _ & E')|(x & _ & _ & [[_ E']|(c & y & n' & ds' & _ & _ & (_ & _ & -> & _) & E')])];
      rewrite E' in E; [done|done|]. injection E as _ <-. apply list.Forall_forall. by intros c0 [Hc _]%elem_of_list_filter.
Qed.

Lemma whole_spec val fa : rounded_arith val fa → ∀ checks am s p,
  local_decimal am p (without_blanks s) → Forall (λ c, c = 48) (d_fraction p) → d_exponent p = None →
  digits_value (d_whole p) <= 2 ^ 53 →
  ∃ v, inferFloat fa checks false am s = Ok v ∧ (val v == decimal_value p)%Q.
Proof.
  intros H checks am s p Hp Hf He Hb. exists (machine_value fa p). split; [apply local_spec; by exists p|].
  destruct (local_digits _ _ _ Hp) as (Hw & _). by apply whole_value.
Qed.

Lemma close_spec val fa : rounded_arith val fa → ∀ P, (1 <= P)%Q →
  (∀ x n, (val x == inject_Z n)%Q → (Qabs (val (f_pow10 fa x) - (10 # 1) ^ n) <= (10 # 1) ^ n * (P - 1))%Q) →
  ∀ checks am s p, local_decimal am p (without_blanks s) →
  (∀ neg ds, d_exponent p = Some (neg, ds) → digits_value ds <= 2 ^ 53) →
  ∃ v, inferFloat fa checks false am s = Ok v ∧
    (Qabs (val v - decimal_value p) <=
     Qabs (decimal_value p) * ((1 + one_part) ^ (2 * zlen (d_whole p ++ d_fraction p) + 4) * P - 1))%Q.
Proof.
  intros H P HP Hpow checks am s p Hp He. exists (machine_value fa p). split; [apply local_spec; by exists p|].
  destruct (local_digits _ _ _ Hp) as (Hw & Hf & Hds). apply close_value; try done. intros neg ds E. split; [by eapply Hds|by eapply He].
Qed.

Lemma third_refuted val fa : rounded_arith val fa → ∀ checks v,
  inferFloat fa checks false false [48; 44; 51] = Ok v → ¬ (val v == fl (3 # 10))%Q.
Proof.
  intros H checks v Hv E. cbn in Hv. injection Hv as <-.
  assert (∀ a b x y, val a == x → val b == y → val (f_mul fa a b) == fl (x * y))%Q as Hm.
  { intros a b x y Ha Hb. rewrite (ra_mul _ _ H). by rewrite Ha, Hb. }
  assert (∀ a b x y, val a == x → val b == y → val (f_add fa a b) == fl (x + y))%Q as Ha.
  { intros a b x y Ha Hb. rewrite (ra_add _ _ H). by rewrite Ha, Hb. }
  revert E. unfold f_digit.
  match goal with |- (?x == _)%Q → _ => assert (x == 1351079888211149 # 4503599627370496)%Q as -> end; [|by vm_compute].
  etransitivity; [|exact three_tenths].
  etransitivity.
  { apply Hm; [apply Hm; [apply Ha; [apply (ra_int _ _ H)|apply Hm; [apply (ra_int _ _ H)|
      apply Hm; [apply (ra_int _ _ H)|apply (ra_tenth _ _ H)]]]|apply (ra_int _ _ H)]|apply (ra_int _ _ H)]. }
  by vm_compute.
Qed.

(** 1.5e+3-2 *)
Lemma two_signs_not_textbook : ¬ textbook_decimal 44 46 [49; 46; 53; 101; 43; 51; 45; 50].
Proof.
  intros (sg & whole & f & x & E & Hsg & Hw & Hf & Hx).
  assert (∀ l, Forall (λ c, ¬ sign_mark c) l → filter sign_mark l = []) as Hfil.
  { induction 1 as [|c l Hc _ IH]; [done|]. by rewrite filter_cons_False. }
  assert (∀ l, Forall digit l → Forall (λ c, ¬ sign_mark c) l) as Hdig.
  { intros l Hl. eapply list.Forall_impl; [exact Hl|]. intros c Hc. unfold digit, sign_mark in *. lia. }
  assert (sg = []) as ->.
  { destruct Hsg as [->|(c & -> & Hc)]; [done|]. injection E as <- _. unfold sign_mark in Hc. lia. }
  assert (Forall (λ c, ¬ sign_mark c) whole) as Nw.
  { destruct Hw as [Hw|(g & gs & -> & Hg & _ & Hgs)]; [by apply Hdig|]. apply list.Forall_app. split; [by apply Hdig|].
    clear E. induction Hgs as [|g' gs [Hg' _] _ IH]; [constructor|]. cbn [map concat app].
    apply list.Forall_cons. split; [unfold sign_mark; lia|]. apply list.Forall_app. split; [by apply Hdig|done]. }
  assert (Forall (λ c, ¬ sign_mark c) f) as Nf.
  { destruct Hf as [->|(ds & -> & _ & Hds)]; [constructor|]. constructor; [unfold sign_mark; lia|by apply Hdig]. }
  apply (f_equal (filter sign_mark)) in E. cbn [app] in E. rewrite !list.filter_app, (Hfil _ Nw), (Hfil _ Nf) in E. cbn [app] in E.
  change (filter sign_mark [49; 46; 53; 101; 43; 51; 45; 50]) with [43; 45] in E.
  destruct Hx as [->|(e & sg & ds & -> & He & Hsg' & _ & Hds)]; [done|].
  rewrite filter_cons_False in E by (unfold exponent_mark, sign_mark in *; lia).
  rewrite list.filter_app, (Hfil ds (Hdig _ Hds)), app_nil_r in E.
  destruct Hsg' as [->|(c & -> & Hc)]; [done|]. rewrite filter_cons_True in E by done. done.
Qed.
Lemma malformed_refuted :
  ¬ ∀ fa checks s v, inferFloat fa checks false true s = Ok v → textbook_decimal 44 46 (without_blanks s).
Proof.
  intros H. apply two_signs_not_textbook.
  apply (H (floats_by Q2Qc) false [49; 46; 53; 101; 43; 51; 45; 50] _ eq_refl).
Qed.
