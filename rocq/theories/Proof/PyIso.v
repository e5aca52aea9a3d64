From Coq Require Import String ZifyBool.
From Verif.Spec Require Import PyTexts.
From Verif.Proof Require Import InferProofs.
Local Open Scope Z_scope.

Lemma digits_at_part (a ds b : list Z) n k : number_of k n ds → digits_at (a ++ ds ++ b) (length a) k = Some n.
Proof.
  intros ((H0 & Hd & Hv) & Hl). unfold digits_at. rewrite drop_app, take_app_alt by done. rewrite Hl, Nat.eqb_refl.
  assert (forallb (λ c, (48 <=? c) && (c <=? 57)) ds = true) as ->; [|by rewrite <- Hv].
  apply forallb_forall. intros c Hc%elem_of_list_In. rewrite list.Forall_forall in Hd. specialize (Hd _ Hc).
  unfold digit in Hd. lia.
Qed.
Lemma digits_at_part' (s a ds b : list Z) n k i : s = a ++ ds ++ b → length a = i → number_of k n ds → digits_at s i k = Some n.
Proof. intros -> <-. apply digits_at_part. Qed.
Lemma digits_at_digits s i k n : digits_at s i k = Some n → (i + k <= length s)%nat ∨ k = 0%nat.
Proof.
  unfold digits_at. destruct (_ && _) eqn:E; [|done]. intros _. apply andb_prop in E as [E _].
  rewrite take_length, drop_length in E. destruct k; [by right|left; lia].
Qed.

Lemma iso37_date_day d s : iso_day d s → length s = 10%nat ∧ (python_date d → iso37_date s = Some d) ∧ (¬ python_date d → iso37_date s = None).
Proof.
  intros (y & m & n & Hy & Hm & Hn & ->). unfold iso37_date. apply and_comm.
  pose proof (number_bound _ _ 4 (proj1 Hy) (proj2 Hy)) as By.
  assert (length y = 4%nat ∧ length m = 2%nat ∧ length n = 2%nat) as (Ly & Lm & Ln) by (split_and!; [apply Hy|apply Hm|apply Hn]).
  rewrite (digits_at_part' _ [] y ([45] ++ m ++ [45] ++ n) (yy d) 4 0) by done.
  rewrite (digits_at_part' _ (y ++ [45]) m ([45] ++ n) (mm d) 2 5) by (rewrite <- ?app_assoc, ?app_length; cbn [length]; first [done|lia]).
  rewrite (digits_at_part' _ (y ++ [45] ++ m ++ [45]) n [] (dd d) 2 8)
    by (rewrite ?app_nil_r, <- ?app_assoc, ?app_length; cbn [length]; first [done|lia]).
  assert (char_is (y ++ [45] ++ m ++ [45] ++ n) 4 45 = true) as ->.
  { apply bool_decide_eq_true. rewrite lookup_app_r by lia. by rewrite Ly. }
  assert (char_is (y ++ [45] ++ m ++ [45] ++ n) 7 45 = true) as ->.
  { apply bool_decide_eq_true. rewrite !lookup_app_r by (cbn [length]; lia). cbn [length]. rewrite Ly, Lm. done. }
  assert ((length (y ++ [45%Z] ++ m ++ [45%Z] ++ n) =? 10)%nat = true) as -> by (rewrite !app_length; cbn [length]; lia).
  split; [|rewrite !app_length; cbn [length]; lia].
  cbn [andb mbind option_bind]. destruct d as [vy vm vn]. cbn [yy mm dd] in *.
  unfold python_date, valid_ymd. cbn [yy mm dd].
  destruct (_ && _) eqn:E; split; intros H; first [done | exfalso; lia].
Qed.

Lemma two_at (s a ds b : list Z) n i : s = a ++ ds ++ b → length a = i → number_of 2 n ds →
  digits_at s i 2 = Some n ∧ digits_value (take 2 (drop i s)) = n.
Proof.
  intros E L H. split; [by eapply digits_at_part'|]. rewrite E, <- L, drop_app. destruct H as [(_ & _ & V) L2].
  by rewrite take_app_alt.
Qed.
Lemma char_at_part (s a b : list Z) c i : s = a ++ c :: b → length a = i → char_is s i c = true.
Proof. intros -> <-. apply bool_decide_eq_true. rewrite lookup_app_r by lia. by rewrite Nat.sub_diag. Qed.

Lemma iso37_time_clock us t : wall_clock us t → iso37_time t = Some us.
Proof.
  intros [Hc (B1 & B2 & B3)].
  assert (∀ h m hs ms rest, t = hs ++ 58 :: ms ++ rest → number_of 2 h hs → number_of 2 m ms →
    digits_at t 0 2 = Some h ∧ digits_at t 3 2 = Some m ∧ char_is t 2 58 = true ∧ h < 24 ∧ m < 60) as Hhm.
  { intros h m hs ms rest E H1 H2.
    destruct (two_at t [] hs (58 :: ms ++ rest) h 0) as [D1 V1]; [done|done|done|].
    destruct (two_at t (hs ++ [58]) ms rest m 3) as [D2 V2]; [by rewrite <- app_assoc|rewrite app_length, (proj2 H1); done|done|].
    change (drop 0 t) with t in V1. split; [done|]. split; [done|]. split; [by eapply char_at_part; [exact E|apply H1]|]. lia. }
  assert (∀ h m x hs ms ss rest, t = hs ++ 58 :: ms ++ 58 :: ss ++ rest → number_of 2 h hs → number_of 2 m ms → number_of 2 x ss →
    digits_at t 6 2 = Some x ∧ char_is t 5 58 = true ∧ x < 60) as Hs.
  { intros h m x hs ms ss rest E H1 H2 H3.
    destruct (two_at t (hs ++ 58 :: ms ++ [58]) ss rest x 6) as [D3 V3];
      [rewrite E; cbn [app]; by rewrite <- !app_assoc; cbn [app]; rewrite <- !app_assoc|
       rewrite app_length; cbn [length]; rewrite app_length, (proj2 H1), (proj2 H2); done|done|].
    split; [done|]. split; [|lia]. apply (char_at_part t (hs ++ 58 :: ms) (ss ++ rest)); [rewrite E; by rewrite <- app_assoc|].
    rewrite app_length; cbn [length]; rewrite (proj2 H1), (proj2 H2); done. }
  destruct Hc as [h m hs ms H1 H2|h m x hs ms ss H1 H2 H3|h m x f hs ms ss fs H1 H2 H3 H4|h m x f hs ms ss fs H1 H2 H3 H4];
    unfold iso37_time.
  - destruct (Hhm h m hs ms []) as (-> & -> & -> & ? & ?); [by rewrite app_nil_r|done|done|].
    assert ((length (hs ++ [58%Z] ++ ms) =? 5)%nat = true) as -> by (rewrite !app_length, (proj2 H1), (proj2 H2); done).
    cbn [andb orb mbind option_bind]. destruct (_ && _) eqn:E; [f_equal; lia|lia].
  - destruct (Hhm h m hs ms ([58] ++ ss)) as (-> & -> & -> & ? & ?); [done|done|done|].
    destruct (Hs h m x hs ms ss []) as (-> & -> & ?); [by rewrite app_nil_r|done|done|done|].
    assert (length (hs ++ [58%Z] ++ ms ++ [58%Z] ++ ss) = 8%nat) as -> by (rewrite !app_length, (proj2 H1), (proj2 H2), (proj2 H3); done).
    cbn [Nat.eqb andb orb mbind option_bind]. destruct (_ && _) eqn:E; [f_equal; lia|lia].
  - destruct (Hhm h m hs ms ([58] ++ ss ++ [46] ++ fs)) as (-> & -> & -> & ? & ?); [done|done|done|].
    destruct (Hs h m x hs ms ss ([46] ++ fs)) as (-> & -> & ?); [done|done|done|done|].
    set (t := hs ++ _). assert (length t = 12%nat) as -> by (subst t; rewrite !app_length, (proj2 H1), (proj2 H2), (proj2 H3), (proj2 H4); done).
    assert (length (hs ++ [58%Z] ++ ms ++ [58%Z] ++ ss) = 8%nat) as L8 by (rewrite !app_length, (proj2 H1), (proj2 H2), (proj2 H3); done).
    rewrite (char_at_part t (hs ++ [58] ++ ms ++ [58] ++ ss) fs 46 8); [|subst t; cbn [app]; by rewrite <- !app_assoc; cbn [app]; rewrite <- !app_assoc|done].
    rewrite (digits_at_part' t (hs ++ [58] ++ ms ++ [58] ++ ss ++ [46]) fs [] f 3 9);
      [|subst t; rewrite app_nil_r; cbn [app]; rewrite <- !app_assoc; cbn [app]; rewrite <- !app_assoc; cbn [app]; by rewrite <- !app_assoc
       |rewrite !app_length in *; cbn [length] in *; lia|done].
    cbn [Nat.eqb negb andb orb mbind option_bind fmap option_fmap option_map]. destruct (_ && _) eqn:E; [f_equal; lia|lia].
  - destruct (Hhm h m hs ms ([58] ++ ss ++ [46] ++ fs)) as (-> & -> & -> & ? & ?); [done|done|done|].
    destruct (Hs h m x hs ms ss ([46] ++ fs)) as (-> & -> & ?); [done|done|done|done|].
    set (t := hs ++ _). assert (length t = 15%nat) as -> by (subst t; rewrite !app_length, (proj2 H1), (proj2 H2), (proj2 H3), (proj2 H4); done).
    assert (length (hs ++ [58%Z] ++ ms ++ [58%Z] ++ ss) = 8%nat) as L8 by (rewrite !app_length, (proj2 H1), (proj2 H2), (proj2 H3); done).
    rewrite (char_at_part t (hs ++ [58] ++ ms ++ [58] ++ ss) fs 46 8); [|subst t; cbn [app]; by rewrite <- !app_assoc; cbn [app]; rewrite <- !app_assoc|done].
    rewrite (digits_at_part' t (hs ++ [58] ++ ms ++ [58] ++ ss ++ [46]) fs [] f 6 9);
      [|subst t; rewrite app_nil_r; cbn [app]; rewrite <- !app_assoc; cbn [app]; rewrite <- !app_assoc; cbn [app]; by rewrite <- !app_assoc
       |rewrite !app_length in *; cbn [length] in *; lia|done].
    cbn [Nat.eqb negb andb orb mbind option_bind]. destruct (_ && _) eqn:E; [f_equal; lia|lia].
Qed.

Lemma digits_at_in s k n i c : digits_at s 0 k = Some n → (i < k)%nat → s !! i = Some c → digit c.
Proof.
  unfold digits_at. destruct (_ && _) eqn:E; [|done]. intros _ Hk Hi. apply andb_prop in E as [_ E].
  rewrite forallb_forall in E. assert (In c (take k (drop 0 s))) as Hin.
  { apply elem_of_list_In, elem_of_list_lookup. exists i. rewrite drop_0, lookup_take; done. }
  specialize (E _ Hin). unfold digit. lia.
Qed.

Lemma iso37_shape s v : iso37_date s = Some v → Forall digit (take 4 s) ∧ length s = 10%nat ∧ s !! 4%nat = Some 45.
Proof.
  unfold iso37_date. destruct (_ && _) eqn:E; [|done]. destruct (digits_at s 0 4) as [y|] eqn:E4; [|done]. intros _.
  apply andb_prop in E as [[E E2]%andb_prop _]. split; [|split; [lia|by apply bool_decide_eq_true in E2]].
  apply list.Forall_forall. intros c (i & Hi & Hc)%elem_of_take. by eapply digits_at_in.
Qed.

Lemma iso37_law : iso_law iso37_date iso37_datetime iso37_time.
Proof.
  split.
  - intros s v (H1 & H2 & H3)%iso37_shape. split; [done|]. split; [lia|]. exists 45. auto.
  - intros s v H. unfold iso37_datetime in H. destruct (iso37_date (take 10 s)) as [d|] eqn:E; [|done].
    apply iso37_shape in E as (H1 & H2 & H3). rewrite take_take in H1. rewrite take_length in H2. split; [done|]. split; [lia|].
    exists 45. rewrite lookup_take in H3 by lia. auto.
  - intros s v H. unfold iso37_time in H. destruct (digits_at s 0 2) as [h|] eqn:E; [|done].
    destruct (digits_at_digits _ _ _ _ E) as [Hl|?]; [|done]. destruct s as [|c s]; [cbn in Hl; lia|]. exists c.
    split; [done|]. left. by eapply (digits_at_in _ _ _ 0 c E); [lia|].
  - intros d s Hs Hd. destruct (iso37_date_day d s Hs) as (L & H & _). split; [by apply H|].
    unfold iso37_datetime. rewrite firstn_all2 by lia. rewrite (H Hd). cbn. by rewrite L.
  - intros d s Hs Hd. destruct (iso37_date_day d s Hs) as (L & _ & H). split; [by apply H|].
    unfold iso37_datetime. rewrite firstn_all2 by lia. by rewrite (H Hd).
  - intros d s c us t Hs Hd Hc Ht. destruct (iso37_date_day d s Hs) as (L & H & _). unfold iso37_datetime.
    rewrite take_app_alt by done. rewrite (H Hd). cbn [mbind option_bind].
    assert ((length (s ++ [c] ++ t) =? 10)%nat = false) as ->.
    { rewrite !app_length. cbn [length]. lia. }
    rewrite drop_app_ge by lia. rewrite L. cbn. change (drop 0 t) with t. by rewrite (iso37_time_clock us t Ht).
  - intros d us s v (y & m & n & mark & time & ((Hy0 & Dy & Vy) & Ly) & ((Hm0 & Dm & Vm) & Lm) & _ & _ & -> & _) H.
    unfold iso37_datetime in H. destruct (iso37_date _) as [d'|] eqn:E; [|done]. apply iso37_shape in E as (_ & _ & H4).
    rewrite lookup_take, lookup_app_r in H4 by lia. rewrite Ly, lookup_app_l in H4 by lia.
    destruct m as [|x m]; [done|]. cbn in H4. injection H4 as ->. apply list.Forall_cons in Dm as [Dm _]. unfold digit in Dm. lia.
  - intros us t. apply iso37_time_clock.
Qed.
