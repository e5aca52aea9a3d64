From Verif.Model Require Export Codec.
From Verif.Proof Require Export Binary64Proofs.
From stdpp Require Import countable.
From Coq Require Import DecimalString DecimalZ Lqa.
Local Open Scope Z_scope.

(** ** ints *)
Lemma int_roundtrip z : int_read (int_show z) = Some z.
Proof.
  unfold int_read, int_show, txt. rewrite string_of_list_ascii_of_string.
  pose proof (DecimalZ.of_to z) as H. destruct (Z.to_int z) as [d|d].
  - destruct (Decimal.uint_eq_dec d Decimal.Nil) as [->|Hd]; [by rewrite NilZero.isi_posnil; rewrite <- H|].
    rewrite NilZero.isi by congruence. cbn [option_map]. by rewrite H.
  - destruct (Decimal.uint_eq_dec d Decimal.Nil) as [->|Hd]; [by rewrite NilZero.isi_negnil; rewrite <- H|].
    rewrite NilZero.isi by congruence. cbn [option_map]. by rewrite H.
Qed.
Lemma uint_chars d : Forall (λ c, float_char c = true) (txt (NilEmpty.string_of_uint d)).
Proof. unfold txt. induction d; cbn [NilEmpty.string_of_uint list_ascii_of_string]; by repeat constructor. Qed.
Lemma int_chars z : Forall (λ c, float_char c = true) (int_show z).
Proof.
  unfold int_show. assert (∀ d, Forall (λ c, float_char c = true) (txt (NilZero.string_of_uint d))) as H.
  { intros d. pose proof (uint_chars d). destruct d; try done. by repeat constructor. }
  destruct (Z.to_int z) as [d|d]; cbn [NilZero.string_of_int]; [done|].
  unfold txt. cbn [list_ascii_of_string]. constructor; [done|]. apply H.
Qed.

(** ** digits *)
Lemma digit_roundtrip d : 0 <= d < 10 → digit_val (digit d) = Some d.
Proof.
  intros H. assert (d = 0 ∨ d = 1 ∨ d = 2 ∨ d = 3 ∨ d = 4 ∨ d = 5 ∨ d = 6 ∨ d = 7 ∨ d = 8 ∨ d = 9) as C by lia.
  by repeat destruct C as [->|C]; try subst d.
Qed.
Lemma pad_length k n : length (pad k n) = k.
Proof. revert n. induction k as [|k IH]; intros n; [done|]. cbn [pad]. rewrite app_length, IH. cbn. lia. Qed.
Lemma read_digits_app acc s1 s2 :
  read_digits acc (s1 ++ s2) = match read_digits acc s1 with Some a => read_digits a s2 | None => None end.
Proof.
  revert acc. induction s1 as [|c s1 IH]; intros acc; [done|]. cbn [read_digits app].
  destruct (digit_val c); [apply IH|done].
Qed.
Lemma read_pad k n acc : 0 <= n < 10 ^ Z.of_nat k → read_digits acc (pad k n) = Some (acc * 10 ^ Z.of_nat k + n).
Proof.
  revert n acc. induction k as [|k IH]; intros n acc H; cbn [pad].
  - change (10 ^ Z.of_nat 0) with 1 in *. cbn [read_digits]. f_equal. lia.
  - replace (Z.of_nat (S k)) with (Z.of_nat k + 1) in * by lia.
    rewrite Z.pow_add_r in * by lia. change (10 ^ 1) with 10 in *.
    pose proof (Z.div_mod n 10 ltac:(done)). pose proof (Z.mod_pos_bound n 10 ltac:(done)).
    rewrite read_digits_app, IH by nia. cbn [read_digits].
    rewrite digit_roundtrip by done. f_equal. nia.
Qed.
Lemma num_at_app (a b c : text) k i n :
  length a = i → b = pad k n → 0 <= n < 10 ^ Z.of_nat k → num_at (a ++ b ++ c) i k = Some n.
Proof.
  intros Ha -> Hn. unfold num_at. rewrite drop_app_ge by lia. rewrite Ha, Nat.sub_diag, drop_0.
  rewrite take_app_alt by (by rewrite pad_length). rewrite read_pad by done. f_equal; lia.
Qed.

(** ** dates and times *)
Lemma make_date_ok d : py_date d → make_date (yy d) (mm d) (dd d) = Ok d.
Proof.
  intros [H1 [H2 H3]]. unfold make_date.
  repeat match goal with |- context [?a <=? ?b] => destruct (Z.leb_spec a b); try lia end.
  by destruct d.
Qed.
Lemma month_days_le y m : month_days y m <= 31.
Proof. unfold month_days. repeat case_match; lia. Qed.
Lemma date_roundtrip d : py_date d → date_from_iso (date_iso d) = Ok d.
Proof.
  intros H. pose proof H as [H1 [H2 H3]]. pose proof (month_days_le (yy d) (mm d)).
  assert (num_at (date_iso d) 0 4 = Some (yy d)) as E1.
  { apply (num_at_app [] _ (txt "-" ++ pad 2 (mm d) ++ txt "-" ++ pad 2 (dd d)) 4 0 (yy d)); [done..|lia]. }
  assert (num_at (date_iso d) 5 2 = Some (mm d)) as E2.
  { unfold date_iso. rewrite (assoc_L (++) (pad 4 (yy d))).
    apply num_at_app; [by rewrite app_length, pad_length|done|lia]. }
  assert (num_at (date_iso d) 8 2 = Some (dd d)) as E3.
  { unfold date_iso. rewrite !(assoc_L (++)). rewrite <- (app_nil_r (pad 2 (dd d))).
    apply num_at_app; [by rewrite !app_length, !pad_length|done|lia]. }
  unfold date_from_iso. rewrite E1, E2, E3.
  assert ((length (date_iso d) =? 10)%nat = true) as ->.
  { unfold date_iso. by rewrite !app_length, !pad_length. }
  assert (char_at (date_iso d) 4 "-" = true) as -> by done.
  assert (char_at (date_iso d) 7 "-" = true) as -> by done.
  cbn [andb]. by apply make_date_ok.
Qed.
Lemma date_iso_length d : length (date_iso d) = 10%nat.
Proof. unfold date_iso. by rewrite !app_length, !pad_length. Qed.

Lemma make_time_ok t : py_tod t → make_time (hh t) (mi t) (ss t) (us t) = Ok t.
Proof.
  intros (H1 & H2 & H3 & H4). unfold make_time.
  repeat match goal with |- context [?a <? ?b] => destruct (Z.ltb_spec a b); try lia end.
  by destruct t.
Qed.
Lemma time_roundtrip t : py_tod t → time_from_iso (time_iso t) = Ok t.
Proof.
  intros H. pose proof H as (H1 & H2 & H3 & H4).
  assert (num_at (time_iso t) 0 2 = Some (hh t)) as E1.
  { apply (num_at_app [] _ (txt ":" ++ pad 2 (mi t) ++ txt ":" ++ pad 2 (ss t) ++ _) 2 0 (hh t)); [done..|lia]. }
  assert (num_at (time_iso t) 3 2 = Some (mi t)) as E2.
  { unfold time_iso. rewrite (assoc_L (++) (pad 2 (hh t))).
    apply num_at_app; [by rewrite app_length, pad_length|done|lia]. }
  assert (num_at (time_iso t) 6 2 = Some (ss t)) as E3.
  { unfold time_iso. rewrite (assoc_L (++) (pad 2 (mi t))), (assoc_L (++) (txt ":")), (assoc_L (++) (pad 2 (hh t))), (assoc_L (++) _ (txt ":")).
    apply num_at_app; [by rewrite !app_length, !pad_length|done|lia]. }
  unfold time_from_iso. rewrite E1, E2, E3.
  assert (char_at (time_iso t) 2 ":" = true) as -> by done.
  assert (char_at (time_iso t) 5 ":" = true) as -> by done.
  cbn [andb]. destruct (Z.eqb_spec (us t) 0) as [E|E].
  - assert ((length (time_iso t) =? 8)%nat = true) as ->.
    { unfold time_iso. rewrite (proj2 (Z.eqb_eq _ _) E). by rewrite !app_length, !pad_length. }
    rewrite <- E. by apply make_time_ok.
  - assert (time_iso t = (pad 2 (hh t) ++ txt ":" ++ pad 2 (mi t) ++ txt ":" ++ pad 2 (ss t) ++ txt ".") ++ pad 6 (us t) ++ []) as Ht.
    { unfold time_iso. rewrite (proj2 (Z.eqb_neq _ _) E). rewrite app_nil_r. by rewrite <- !(assoc_L (++)). }
    assert (length (time_iso t) = 15%nat) as L by (rewrite Ht; by rewrite !app_length, !pad_length).
    rewrite L. cbn [Nat.eqb].
    assert (char_at (time_iso t) 8 "." = true) as -> by (rewrite Ht; done).
    assert (num_at (time_iso t) 9 6 = Some (us t)) as ->.
    { rewrite Ht. apply num_at_app; [by rewrite !app_length, !pad_length|done|lia]. }
    cbn [andb]. by apply make_time_ok.
Qed.
Lemma datetime_roundtrip d t : py_date d → py_tod t → datetime_from_iso (datetime_iso d t) = Ok (d, t).
Proof.
  intros Hd Ht. unfold datetime_from_iso, datetime_iso.
  rewrite take_app_alt by (by rewrite date_iso_length).
  rewrite drop_app_ge by (rewrite date_iso_length; lia). rewrite date_iso_length.
  change (11 - 10)%nat with 1%nat. cbn [txt list_ascii_of_string app drop].
  rewrite drop_0, date_roundtrip by done. cbn [res_bind]. by rewrite time_roundtrip.
Qed.

(** ** timedeltas *)
Definition td_of (total : Z) : res cval :=
  let d := total / 86400000000 in
  if (-999999999 <=? d) && (d <=? 999999999)
  then Ok (CDelta d (total / 1000000 mod 86400) (total mod 1000000)) else Err OtherError.
Lemma td_of_fields d s u : py_value (CDelta d s u) → td_of ((d * 86400 + s) * 1000000 + u) = Ok (CDelta d s u).
Proof.
  intros (H1 & H2 & H3). unfold td_of.
  assert (((d * 86400 + s) * 1000000 + u) / 86400000000 = d) as ->.
  { symmetry. apply (Z.div_unique _ _ _ (s * 1000000 + u)); lia. }
  assert (((d * 86400 + s) * 1000000 + u) / 1000000 = d * 86400 + s) as ->.
  { symmetry. apply (Z.div_unique _ _ _ u); lia. }
  assert ((d * 86400 + s) mod 86400 = s) as ->.
  { symmetry. apply (Z.mod_unique _ _ d); lia. }
  assert (((d * 86400 + s) * 1000000 + u) mod 1000000 = u) as ->.
  { symmetry. apply (Z.mod_unique _ _ (d * 86400 + s)); lia. }
  destruct (Z.leb_spec (-999999999) d), (Z.leb_spec d 999999999); try lia. done.
Qed.

Local Open Scope Q_scope.
Lemma timedelta_new_near days sec T :
  Qabs (1000000 * this sec - inject_Z T) <= 499999 # 1000000 →
  timedelta_new days sec = td_of (days * 86400 * 1000000 + T).
Proof.
  intros H. unfold timedelta_new. set (i := qtrunc sec).
  assert (rne (this (fl (1000000 * (this sec - inject_Z i)))) = T - i * 1000000)%Z as ->.
  { apply rne_near. pose proof (fl_err (1000000 * (this sec - inject_Z i))) as E.
    pose proof (qtrunc_near sec) as Ht. fold i in Ht.
    set (y := this (fl (1000000 * (this sec - inject_Z i)))) in *.
    rewrite Qabs_Qmult in E. change (Qabs 1000000) with 1000000 in E.
    set (w := Qabs (this sec - inject_Z i)) in *.
    apply Qabs_Qle_condition in E as [E1 E2]. apply Qabs_Qle_condition in H as [H1 H2].
    unfold Z.sub. rewrite inject_Z_plus, inject_Z_opp, inject_Z_mult. change (inject_Z 1000000) with 1000000.
    unfold u53 in E1, E2. apply Qabs_Qlt_condition. lra. }
  replace ((days * 86400 + i) * 1000000 + (T - i * 1000000))%Z with (days * 86400 * 1000000 + T)%Z by lia.
  done.
Qed.
Lemma inject_le a b : (a <= b)%Z → inject_Z a <= inject_Z b.
Proof. intros H. by rewrite <- Zle_Qle. Qed.

Lemma json_delta_near s u : (0 <= s < 86400)%Z → (0 <= u < 1000000)%Z →
  Qabs (1000000 * this (fl (inject_Z s + this (fl (inject_Z u / 1000000)))) - inject_Z (s * 1000000 + u)) <= 499999 # 1000000.
Proof.
  intros Hs Hu. pose proof (fl_err (inject_Z u / 1000000)) as E1. set (a := this (fl (inject_Z u / 1000000))) in *.
  pose proof (fl_err (inject_Z s + a)) as E2. set (b := this (fl (inject_Z s + a))) in *.
  pose proof (inject_le 0 u ltac:(lia)) as U0. pose proof (inject_le u 1000000 ltac:(lia)) as U1.
  pose proof (inject_le 0 s ltac:(lia)) as S0. pose proof (inject_le s 86400 ltac:(lia)) as S1.
  rewrite inject_Z_plus, inject_Z_mult. change (inject_Z 1000000) with 1000000 in *. change (inject_Z 0) with 0 in *.
  change (inject_Z 86400) with 86400 in *. set (U := inject_Z u) in *. set (S := inject_Z s) in *.
  assert (U / 1000000 == U * (1 # 1000000)) as Hd by done.
  rewrite Hd in E1. rewrite (Qabs_pos (U * (1 # 1000000))) in E1 by lra.
  apply Qabs_Qle_condition in E1 as [A1 A2]. unfold u53 in *.
  rewrite (Qabs_pos (S + a)) in E2 by lra. apply Qabs_Qle_condition in E2 as [B1 B2].
  apply Qabs_Qle_condition. lra.
Qed.

Lemma bytes_delta_near d s : (-52000 <= d <= 52000)%Z → (0 <= s < 86400)%Z →
  let v := this (fl (inject_Z d + this (fl (inject_Z s / 86400)))) in
  let i := qtrunc v in
  Qabs (1000000 * this (fl (86400 * this (fl (v - inject_Z i)))) - inject_Z ((d - i) * 86400 * 1000000 + s * 1000000))
  <= 499999 # 1000000.
Proof.
  intros Hd Hs v i. pose proof (fl_err (inject_Z s / 86400)) as E1.
  pose proof (fl_err (inject_Z d + this (fl (inject_Z s / 86400)))) as E2. fold v in E2.
  set (a := this (fl (inject_Z s / 86400))) in *.
  pose proof (qtrunc_near v) as Ht. fold i in Ht.
  pose proof (fl_err (v - inject_Z i)) as E3. set (f := this (fl (v - inject_Z i))) in *.
  pose proof (fl_err (86400 * f)) as E4. set (g := this (fl (86400 * f))) in *.
  pose proof (inject_le 0 s ltac:(lia)) as S0. pose proof (inject_le s 86400 ltac:(lia)) as S1.
  pose proof (inject_le (-52000) d ltac:(lia)) as D0. pose proof (inject_le d 52000 ltac:(lia)) as D1.
  rewrite inject_Z_plus, !inject_Z_mult. unfold Z.sub. rewrite inject_Z_plus, inject_Z_opp.
  change (inject_Z 1000000) with 1000000 in *. change (inject_Z 0) with 0 in *. change (inject_Z 86400) with 86400 in *.
  change (inject_Z 52000) with 52000 in *. change (inject_Z (-52000)) with (-52000) in *.
  set (S := inject_Z s) in *. set (D := inject_Z d) in *. set (I := inject_Z i) in *.
  assert (S / 86400 == S * (1 # 86400)) as Hq by done.
  rewrite Hq in E1. rewrite (Qabs_pos (S * (1 # 86400))) in E1 by lra.
  assert (Qabs (D + a) <= 52002) as Ba.
  { apply Qabs_Qle_condition in E1 as [A1 A2]. unfold u53 in *. apply Qabs_Qle_condition. lra. }
  assert (Qabs (v - D - a) <= 52002 * u53) as Ev.
  { assert (v - D - a == v - (D + a)) as -> by ring. eapply Qle_trans; [exact E2|].
    apply Qmult_le_compat_r; [done|]. by vm_compute. }
  assert (Qabs (f - (v - I)) <= u53) as Ef.
  { eapply Qle_trans; [exact E3|]. assert (u53 == 1 * u53) as H1 by ring. rewrite H1 at 2.
    apply Qmult_le_compat_r; [done|]. by vm_compute. }
  apply Qabs_Qle_condition in Ht as [T1 T2]. apply Qabs_Qle_condition in Ef as [F1 F2].
  assert (Qabs (86400 * f) <= 86401) as Bf.
  { unfold u53 in *. apply Qabs_Qle_condition. lra. }
  assert (Qabs (g - 86400 * f) <= 86401 * u53) as Eg.
  { eapply Qle_trans; [exact E4|]. apply Qmult_le_compat_r; [done|]. by vm_compute. }
  apply Qabs_Qle_condition in E1 as [A1 A2]. apply Qabs_Qle_condition in Ev as [V1 V2].
  apply Qabs_Qle_condition in Eg as [G1 G2]. unfold u53 in *.
  apply Qabs_Qle_condition. lra.
Qed.
Local Close Scope Q_scope.

(** ** all values *)
Lemma bytes_roundtrip fshow fread v :
  reads_back fshow fread → py_value v →
  (∀ d s u, v = CDelta d s u → u = 0 ∧ -52000 <= d <= 52000) →
  from_type_code fread (to_bytes fshow v) (type_code v) = Ok v.
Proof.
  intros [R1 R2] Hv Hd. destruct v as [|b|z|f|s|s|d t|d|t|d s u]; cbn [to_bytes from_type_code type_code].
  - done.
  - by destruct b.
  - by rewrite int_roundtrip.
  - unfold read_float. destruct f as [q| | | |]; [by rewrite R1|by rewrite R2..].
  - done.
  - done.
  - destruct Hv as [H1 H2]. by rewrite datetime_roundtrip.
  - by rewrite date_roundtrip.
  - by rewrite time_roundtrip.
  - destruct (Hd d s u eq_refl) as [-> Hd']. destruct Hv as (H1 & H2 & H3).
    unfold timedelta_of, read_float. rewrite R1 by apply fl_idem. cbn [res_bind].
    set (v := fl (inject_Z d + this (fl (inject_Z s / 86400)))). set (i := qtrunc v). cbv zeta.
    rewrite (timedelta_new_near i _ ((d - i) * 86400 * 1000000 + s * 1000000)) by (by apply bytes_delta_near).
    rewrite <- (td_of_fields d s 0) by (split_and!; lia). f_equal. lia.
Qed.

Lemma lstrip_not x c s : c ≠ x → lstrip x (c :: s) = c :: s.
Proof. intros H. cbn [lstrip]. by rewrite decide_False. Qed.
Lemma lstrip_P s : Forall (λ c, float_char c = true) s → lstrip "P" s = s.
Proof. destruct 1 as [|c s Hc _]; [done|]. apply lstrip_not. intros ->. done. Qed.
Lemma rstrip_S s : Forall (λ c, float_char c = true) s → rstrip "S" (s ++ txt "S") = s.
Proof.
  intros H. unfold rstrip. rewrite reverse_app. change (reverse (txt "S")) with ["S"%char].
  cbn [app lstrip]. rewrite decide_True by done.
  assert (lstrip "S" (reverse s) = reverse s) as ->; [|by rewrite reverse_involutive].
  assert (Forall (λ c, float_char c = true) (reverse s)) as Hr by (by apply Forall_reverse).
  destruct Hr as [|c l Hc _]; [done|]. apply lstrip_not. intros ->. done.
Qed.
(** no D in it *)
Lemma split_dt_none acc s : Forall (λ c, c ≠ "D"%char) s → split_dt acc s = [acc ++ s].
Proof.
  revert acc. induction s as [|c s IH]; intros acc H; [by rewrite app_nil_r|].
  apply list.Forall_cons in H as [Hc Hs]. cbn [split_dt].
  destruct s as [|c' s']; [done|]. rewrite decide_False by (by intros [? _]).
  rewrite IH by done. by rewrite <- (assoc_L (++)).
Qed.
Lemma split_dt_first acc s r : Forall (λ c, c ≠ "D"%char) s → split_dt acc (s ++ txt "DT" ++ r) = (acc ++ s) :: split_dt [] r.
Proof.
  revert acc. induction s as [|c s IH]; intros acc H.
  - cbn [app txt list_ascii_of_string split_dt]. rewrite decide_True by done. by rewrite app_nil_r.
  - apply list.Forall_cons in H as [Hc Hs]. specialize (IH (acc ++ [c]) Hs).
    destruct s as [|c' s'].
    + cbn [app txt list_ascii_of_string split_dt] in *. rewrite decide_False by (by intros [? _]).
      rewrite IH. by rewrite app_nil_r.
    + cbn [app] in *. remember (c' :: s' ++ txt "DT" ++ r) as q eqn:Hq.
      cbn [split_dt]. rewrite Hq at 1. rewrite decide_False by (by intros [? _]). rewrite IH.
      by rewrite <- (assoc_L (++)).
Qed.
Lemma float_char_not c x : float_char x = false → float_char c = true → c ≠ x.
Proof. intros Hx Hc ->. congruence. Qed.

Lemma none_text_length s : s ∈ none_texts → (length s <= 4)%nat.
Proof. unfold none_texts. intros H. repeat (apply elem_of_cons in H as [->|H]; [cbn; lia|]). by apply elem_of_nil in H. Qed.
Lemma not_none s nan : (4 < length s)%nat → in_nones nan (JStr s) = false.
Proof. intros H. cbn. apply bool_decide_eq_false. intros E%none_text_length. lia. Qed.
Lemma time_iso_length t : (8 <= length (time_iso t))%nat.
Proof. unfold time_iso. rewrite !app_length, !pad_length. cbn. lia. Qed.

Lemma json_roundtrip fshow fread nan v :
  reads_back fshow fread → plain_text fshow → py_value v →
  (∀ s, v ≠ CBytes s) →
  (∀ s, v = CStr s → s = [] ∨ s ∉ none_texts) →
  (v = CFloat Nan → nan = false) →
  ∃ j, to_json fshow v = Ok j ∧ from_json fread nan j (type_of v) = Ok v.
Proof.
  intros [R1 R2] RP Hv Hb Hs Hn. destruct v as [|b|z|f|s|s|d t|d|t|d s u]; cbn [to_json type_of].
  - by eexists.
  - eexists. split; [done|]. by destruct b.
  - by eexists.
  - eexists. split; [done|]. unfold from_json. destruct f as [q| | | |]; try done. by rewrite (Hn eq_refl).
  - eexists. split; [done|]. unfold from_json. cbn [in_nones].
    destruct (Hs s eq_refl) as [->|Hne]; [done|]. by rewrite bool_decide_eq_false_2.
  - by destruct (Hb s).
  - eexists. split; [done|]. unfold from_json. rewrite not_none.
    2:{ unfold datetime_iso. rewrite !app_length, date_iso_length. cbn. lia. }
    destruct Hv as [H1 H2]. by rewrite datetime_roundtrip.
  - eexists. split; [done|]. unfold from_json. rewrite not_none by (rewrite date_iso_length; lia).
    by rewrite date_roundtrip.
  - eexists. split; [done|]. unfold from_json. rewrite not_none by (pose proof (time_iso_length t); lia).
    by rewrite time_roundtrip.
  - eexists. split; [done|]. unfold from_json.
    set (q := fl (inject_Z s + this (fl (inject_Z u / 1000000)))).
    rewrite not_none.
    2:{ rewrite !app_length. cbn [txt list_ascii_of_string length].
        assert (1 <= length (int_show d))%nat as L.
        { pose proof (int_roundtrip d) as Hi. destruct (int_show d); [|cbn; lia].
          destruct (decide (d = 0)) as [->|]; done. }
        lia. }
    rewrite (assoc_L (++) (txt "P")). rewrite split_dt_first.
    2:{ apply Forall_app. split; [by repeat constructor|]. eapply list.Forall_impl; [apply int_chars|].
        intros c. by apply float_char_not. }
    rewrite split_dt_none.
    2:{ apply Forall_app. split; [|by repeat constructor]. eapply list.Forall_impl; [apply RP|].
        intros c. by apply float_char_not. }
    cbn [app]. change (txt "P" ++ int_show d) with ("P"%char :: int_show d).
    assert (lstrip "P" ("P"%char :: int_show d) = int_show d) as ->.
    { cbn [lstrip]. rewrite decide_True by done. apply lstrip_P, int_chars. }
    rewrite int_roundtrip, rstrip_S by apply RP. unfold read_float. rewrite R1 by apply fl_idem. cbn [res_bind].
    destruct Hv as (H1 & H2 & H3).
    rewrite (timedelta_new_near _ _ (s * 1000000 + u)) by (by apply json_delta_near).
    rewrite <- (td_of_fields d s u) by done. f_equal. lia.
Qed.

(** an instance of [fshow], [fread], for the examples *)
Definition fshow0 (f : fval) : text :=
  int_show match f with
           | Fin q => Z.pos (encode (Qnum q, Qden q))
           | NegZero => 0 | PosInf => -1 | NegInf => -2 | Nan => -3
           end.
Definition fread0 (s : text) : option fval :=
  match int_read s with
  | Some (Z.pos p) => match decode p with Some (n, d) => Some (Fin (Q2Qc (n # d))) | None => None end
  | Some 0 => Some NegZero
  | Some (-1) => Some PosInf
  | Some (-2) => Some NegInf
  | Some (-3) => Some Nan
  | _ => None
  end.
Lemma fshow0_reads_back : reads_back fshow0 fread0.
Proof.
  split.
  - intros q _. unfold fread0, fshow0. rewrite int_roundtrip, decode_encode. do 2 f_equal. apply Qc_is_canon.
    etransitivity; [apply Qred_correct|]. by destruct q as [[n d] ?].
  - intros f Hf. unfold fread0, fshow0. rewrite int_roundtrip. destruct f as [q| | | |]; try done. by destruct (Hf q).
Qed.
Lemma fshow0_plain : plain_text fshow0.
Proof. intros q. apply int_chars. Qed.

(** ** what is lost *)
Lemma bytes_us_lost fshow d s u u' : to_bytes fshow (CDelta d s u) = to_bytes fshow (CDelta d s u').
Proof. done. Qed.
Lemma bytes_days_lost fshow fread : reads_back fshow fread →
  from_type_code fread (to_bytes fshow (CDelta 999999999 1 0)) 10 = Ok (CDelta 999999999 0 999069).
Proof.
  intros [R1 R2]. cbn [to_bytes from_type_code]. unfold timedelta_of, read_float. rewrite R1 by apply fl_idem.
  cbn [res_bind]. cbv zeta. vm_compute. done.
Qed.
Lemma json_none_lost fshow fread nan s : s ∈ none_texts → s ≠ [] →
  ∃ j, to_json fshow (CStr s) = Ok j ∧ from_json fread nan j (type_of (CStr s)) = Ok CNone.
Proof.
  intros Hs Hn. exists (JStr s). split; [done|]. unfold from_json. cbn [in_nones type_of].
  rewrite bool_decide_eq_true_2 by done. by destruct s.
Qed.
Lemma bytes_lost fshow fread : reads_back fshow fread →
  (∃ v w, py_value v ∧ py_value w ∧ v ≠ w ∧ type_code v = type_code w ∧ to_bytes fshow v = to_bytes fshow w) ∧
  (∃ d s w, py_value (CDelta d s 0) ∧ w ≠ CDelta d s 0 ∧
     from_type_code fread (to_bytes fshow (CDelta d s 0)) (type_code (CDelta d s 0)) = Ok w).
Proof.
  intros R. split.
  - exists (CDelta 0 0 1), (CDelta 0 0 2). by split_and!; cbn; try lia.
  - exists 999999999, 1, (CDelta 999999999 0 999069). split; [cbn; lia|]. split; [done|]. by apply bytes_days_lost.
Qed.
Lemma json_lost fshow fread nan :
  (∃ v j, py_value v ∧ v ≠ CNone ∧ to_json fshow v = Ok j ∧ from_json fread nan j (type_of v) = Ok CNone) ∧
  (∃ j, to_json fshow (CFloat Nan) = Ok j ∧ from_json fread true j DFloat = Ok CNone).
Proof.
  split; [|by eexists].
  destruct (json_none_lost fshow fread nan (txt "null")) as (j & H1 & H2); [by left|done|].
  by exists (CStr (txt "null")), j.
Qed.
Lemma json_bytes fshow s : to_json fshow (CBytes s) = Err TypeError.
Proof. done. Qed.
Lemma codec_example :
  reads_back fshow0 fread0 ∧
  let dt := CDatetime (Ymd 2024 2 29) (Tod 23 59 59 10) in
  let td := CDelta (-3) 7 0 in
  py_value dt ∧ py_value td ∧
  to_bytes fshow0 dt = txt "2024-02-29T23:59:59.000010" ∧
  from_type_code fread0 (txt "2024-02-29T23:59:59.000010") 7 = Ok dt ∧
  from_type_code fread0 (txt "2023-02-29T23:59:59.000010") 7 = Err ValueError ∧
  from_type_code fread0 (to_bytes fshow0 td) 10 = Ok td ∧
  from_type_code fread0 (to_bytes fshow0 (CInt (-1203))) 3 = Ok (CInt (-1203)).
Proof.
  split; [apply fshow0_reads_back|]. cbv zeta.
  split_and!; try done; cbn [yy mm dd hh mi ss us]; try lia; try by vm_compute.
Qed.
Lemma json_example :
  reads_back fshow0 fread0 ∧ plain_text fshow0 ∧ py_value (CDelta (-1) 86399 999999) ∧
  res_bind (to_json fshow0 (CDelta (-1) 86399 999999)) (λ j, from_json fread0 false j DDelta) =
    Ok (CDelta (-1) 86399 999999) ∧
  res_bind (to_json fshow0 (CStr (txt "none"))) (λ j, from_json fread0 false j DStr) = Ok (CStr (txt "none")) ∧
  res_bind (to_json fshow0 (CTime (Tod 1 2 3 0))) (λ j, from_json fread0 false j DTime) = Ok (CTime (Tod 1 2 3 0)).
Proof.
  split; [apply fshow0_reads_back|]. split; [apply fshow0_plain|]. split; [cbn; lia|].
  split_and!; by vm_compute.
Qed.

Lemma json_roundtrip_texts fshow fread nan v :
  reads_back fshow fread → plain_text fshow → py_value v →
  (∀ s, v ≠ CBytes s) →
  (∀ s, v = CStr s → s ∉ map txt ["null"; "Null"; "NULL"; "#N/A"; "#n/a"; "None"]%string) →
  (v = CFloat Nan → nan = false) →
  ∃ j, to_json fshow v = Ok j ∧ from_json fread nan j (type_of v) = Ok v.
Proof.
  intros H1 H2 H3 H4 H5. apply json_roundtrip; try done. intros s Hs. specialize (H5 s Hs).
  destruct (decide (s = [])) as [|Hne]; [by left|right]. intros Hin. apply H5. revert Hin. unfold none_texts. cbn [map].
  rewrite !elem_of_cons. intros Hin. destruct_or?; subst; auto 8; done.
Qed.
