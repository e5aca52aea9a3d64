From Coq Require Import Ascii String ZifyBool.
From Verif.Model Require Import Npy.
From Verif.Proof Require Import DatesProofs SmallProofs PicklePageProofs.
Local Open Scope Z_scope.

(** * Days since 1970 *)
Lemma month_loop_at (leap : bool) m d :
  1 <= m <= 12 → 1 <= d <= mlen leap m →
  month_loop (DAYS_PER_MONTH leap) 0 (foldr Z.add 0 (map (mlen leap) (seqZ 1 (m - 1))) + d - 1) = Some (m, d)
  ∧ 0 <= foldr Z.add 0 (map (mlen leap) (seqZ 1 (m - 1))) + d - 1 < (if leap then 366 else 365).
Proof.
  intros Hm Hd.
  assert (m = 1 ∨ m = 2 ∨ m = 3 ∨ m = 4 ∨ m = 5 ∨ m = 6 ∨ m = 7 ∨ m = 8 ∨ m = 9 ∨ m = 10 ∨ m = 11 ∨ m = 12)
    as Hc by lia.
  destruct leap;
  repeat match type of Hc with
  | _ ∨ _ => destruct Hc as [Hc|Hc]
  end; subst m;
  match type of Hd with _ ∧ _ <= ?l => let v := eval vm_compute in l in change l with v in Hd end;
  match goal with |- context [foldr Z.add 0 ?l] => let v := eval vm_compute in (foldr Z.add 0 l) in
    change (foldr Z.add 0 l) with v end;
  split; try lia; cbn [month_loop DAYS_PER_MONTH];
  repeat (match goal with |- context [?a <? ?b] => destruct (Z.ltb_spec a b) end;
          cbv beta iota; [try lia; f_equal; f_equal; lia|]); exfalso; lia.
Qed.

Lemma epoch_before d : epoch_days d
  = 10957 + before (yy d) + (foldr Z.add 0 (map (mlen (gleap (yy d))) (seqZ 1 (mm d - 1))) + dd d - 1).
Proof.
  unfold epoch_days, month_start, before.
  change (map (month_days (yy d)) (seqZ 1 (mm d - 1))) with (map (mlen (gleap (yy d))) (seqZ 1 (mm d - 1))).
  generalize (foldr Z.add 0 (map (mlen (gleap (yy d))) (seqZ 1 (mm d - 1)))). intros z.
  Z.div_mod_to_equations. lia.
Qed.

Lemma days2_epoch d : valid_ymd d → days2Components (epoch_days d) = Some d.
Proof.
  intros [Hm Hd]. destruct d as [y m d]. cbn [yy mm dd] in *. rewrite month_days_mlen in Hd.
  pose proof (month_loop_at (gleap y) m d Hm Hd) as [Hl Ht].
  unfold days2Components. rewrite epoch_before. cbn [yy mm dd].
  set (t := foldr Z.add 0 (map (mlen (gleap y)) (seqZ 1 (m - 1))) + d - 1) in *.
  destruct (days2YearsDays (10957 + before y + t)) as [z u] eqn:E.
  apply years_days_spec in E as [E Hu].
  destruct (before_unique y z t u) as [<- <-]; [done|done|lia|].
  rewrite isLeapYear_gleap, Hl. done.
Qed.

Lemma date_of_epoch d : valid_ymd d → date_of_days (epoch_days d) = d.
Proof. intros H. unfold date_of_days. by rewrite days2_epoch. Qed.

Lemma epoch_bound d : python_date d → -719162 <= epoch_days d <= 2932896.
Proof.
  intros [Hy [Hm Hd]]. rewrite epoch_before. rewrite month_days_mlen in Hd.
  pose proof (month_loop_at (gleap (yy d)) (mm d) (dd d) Hm Hd) as [_ Ht].
  set (t := foldr Z.add 0 _ + dd d - 1) in *.
  assert (before 1 <= before (yy d)) by (unfold before; Z.div_mod_to_equations; lia).
  assert (before (yy d) + ylen (yy d) <= before 10000).
  { rewrite <- before_next. unfold before. Z.div_mod_to_equations; lia. }
  change (before 1) with (-730119) in *. change (before 10000) with 2921940 in *.
  unfold ylen in *. lia.
Qed.

(** * Decimal numbers *)
Lemma digits_value_app a x : digits_value (a ++ [x]) = 10 * digits_value a + (x - 48).
Proof. unfold digits_value. by rewrite fold_left_app. Qed.

Lemma dec_spec fuel n : 0 <= n < 10 ^ Z.of_nat fuel → (0 < fuel)%nat →
  decimal n (dec fuel n) ∧ (0 < n → head (dec fuel n) ≠ Some 48).
Proof.
  revert n. induction fuel as [|fuel IH]; intros n Hn Hf; [lia|]. cbn [dec].
  destruct (Z.ltb_spec n 10) as [Hl|Hl].
  - split; [|intros ? [= ?]; lia]. split; [done|]. split; [by repeat constructor; lia|].
    split; [cbn; lia|]. intros [= ?]. assert (n = 0) as -> by lia. done.
  - destruct fuel as [|fuel]; [lia|].
    assert (0 < n / 10) by (Z.div_mod_to_equations; lia).
    destruct (IH (n / 10)) as [(H1 & H2 & H3 & H4) H5]; [|lia|].
    { split; [lia|]. apply Z.div_lt_upper_bound; [lia|].
      replace (Z.of_nat (S (S fuel))) with (1 + Z.of_nat (S fuel)) in Hn by lia.
      rewrite Z.pow_add_r in Hn by lia. lia. }
    specialize (H5 ltac:(lia)).
    assert (head (dec (S fuel) (n / 10) ++ [48 + n mod 10]) ≠ Some 48) as Hh.
    { destruct (dec (S fuel) (n / 10)); [done|]. done. }
    split; [|by intros _]. split; [by destruct (dec (S fuel) (n / 10))|].
    split. { apply Forall_app. split; [done|]. constructor; [|constructor]. Z.div_mod_to_equations; lia. }
    split; [|done]. rewrite digits_value_app, H3. Z.div_mod_to_equations. lia.
Qed.

Lemma uint_text_decimal n : 0 <= n < 10 ^ 20 → decimal n (uint_text n).
Proof. intros H. by apply dec_spec; [|lia]. Qed.

Lemma parse_digits_value ds v : Forall (λ d, 48 <= d <= 57) ds →
  parse_digits v ds = Ok (fold_left (λ v d, 10 * v + (d - 48)) ds v).
Proof.
  revert v. induction ds as [|d ds IH]; intros v H; [done|].
  apply list.Forall_cons in H as [Hd H]. cbn [parse_digits fold_left].
  assert (isDigit d = true) as -> by (unfold isDigit; lia). by apply IH.
Qed.

Lemma parseInt_decimal n ds : decimal n ds → 0 <= n < 2 ^ 63 → parseInt ds = Ok n.
Proof.
  intros (H1 & H2 & H3 & _) Hn. unfold parseInt.
  assert (parse_uint ds = Ok n) as Hp.
  { unfold parse_uint. rewrite parse_digits_value by done. destruct ds as [|d ds]; [done|].
    apply list.Forall_cons in H2 as [Hd _]. assert (isDigit d = true) as -> by (unfold isDigit; lia).
    by rewrite <- H3. }
  destruct ds as [|d ds']; [done|]. apply list.Forall_cons in H2 as [Hd _].
  rewrite !(proj2 (Z.eqb_neq _ _)) by lia. rewrite Hp.
  cbn [res_bind]. rewrite (proj2 (Z.leb_le _ _)), (proj2 (Z.ltb_lt _ _)) by lia. done.
Qed.

(** * Searching *)
Lemma split_at_app c a b : c ∉ a → split_at c (a ++ c :: b) = Some (a, b).
Proof.
  induction a as [|x a IH]; intros H; cbn [app split_at].
  - by rewrite Z.eqb_refl.
  - apply not_elem_of_cons in H as [H1 H2]. rewrite (proj2 (Z.eqb_neq _ _)) by done.
    by rewrite IH.
Qed.

Lemma split_on_none c a : c ∉ a → split_on c a = [a].
Proof.
  induction a as [|x a IH]; intros H; [done|]. apply not_elem_of_cons in H as [H1 H2].
  cbn [split_on]. rewrite (proj2 (Z.eqb_neq _ _)) by done. by rewrite IH.
Qed.

Lemma split_on_one c a : c ∉ a → split_on c (a ++ [c]) = [a; []].
Proof.
  induction a as [|x a IH]; intros H; cbn [app split_on].
  - by rewrite Z.eqb_refl.
  - apply not_elem_of_cons in H as [H1 H2]. rewrite (proj2 (Z.eqb_neq _ _)) by done. by rewrite IH.
Qed.

Lemma ascii_bytes_of s : ascii_bytes s = bytes_of s.
Proof. induction s; [done|]. cbn. by f_equal. Qed.

(** * The header *)
Definition desc_of (t : dtype) : descriptor * Z :=
  match t with
  | TBool => (D_BOOLEAN, 1)
  | TInt k => (D_INT, Z.of_nat k)
  | TFloat k => (D_FLOAT, Z.of_nat k)
  | TUnicode n => (D_UNICODE, Z.of_nat n)
  | TDays => (D_DATE_DAYS, 8)
  | TTime Seconds => (D_DATETIME_SECONDS, 8)
  | TTime Milliseconds => (D_DATETIME_MILISECONDS, 8)
  | TTime Microseconds => (D_DATETIME_MICROSECONDS, 8)
  end.

Lemma decimal_no c n ds : decimal n ds → ¬ (48 <= c <= 57) → c ∉ ds.
Proof.
  intros (_ & H & _) Hc Hin. pose proof (proj1 (list.Forall_forall _ _) H c Hin). simpl in *. lia.
Qed.

Lemma type_read t text e : type_text t text →
  type_of e text = Ok (e, (desc_of t).1, (desc_of t).2) ∧ 39 ∉ text.
Proof.
  destruct t as [|k|k|n| |u]; cbn [type_text desc_of fst snd].
  - intros ->. split; [done|]. vm_compute. set_solver.
  - intros (Hk & ds & Hd & ->). cbn [ascii_bytes app type_of].
    change (Z.of_N (N_of_ascii "i"%char)) with 105. cbn [Z.eqb Pos.eqb]. split.
    + rewrite (parseInt_decimal (Z.of_nat k)); [done|done|]. set_solver by lia.
    + apply not_elem_of_cons. split; [done|]. eapply decimal_no; [done|lia].
  - intros (Hk & ds & Hd & ->). cbn [ascii_bytes app type_of].
    change (Z.of_N (N_of_ascii "f"%char)) with 102. cbn [Z.eqb Pos.eqb]. split.
    + rewrite (parseInt_decimal (Z.of_nat k)); [done|done|]. set_solver by lia.
    + apply not_elem_of_cons. split; [done|]. eapply decimal_no; [done|lia].
  - intros (Hk & ds & Hd & ->). cbn [ascii_bytes app type_of].
    change (Z.of_N (N_of_ascii "U"%char)) with 85. cbn [Z.eqb Pos.eqb]. split.
    + rewrite (parseInt_decimal (Z.of_nat n)); [|done|lia]. cbn [res_bind].
      by rewrite (proj2 (Z.leb_gt _ _)) by lia.
    + apply not_elem_of_cons. split; [done|]. eapply decimal_no; [done|lia].
  - intros ->. split; [done|]. vm_compute. set_solver.
  - destruct u; intros ->; (split; [done|]; vm_compute; set_solver).
Qed.

Lemma skip_nl h : skip_to_alnum (bytes_of ": False" ++ h) = bytes_of "False" ++ h.
Proof. done. Qed.

Lemma shape_digits s ds h : Forall (λ d, 48 <= d <= 57) ds →
  shape_text (Some s) (ds ++ h) = shape_text (Some (rev ds ++ s)) h.
Proof.
  revert s. induction ds as [|d ds IH]; intros s H; [done|].
  apply list.Forall_cons in H as [Hd H]. cbn [app shape_text].
  rewrite (proj2 (Z.eqb_neq d 41)), (proj2 (Z.eqb_neq d 40)) by lia.
  cbn [fmap option_fmap option_map]. rewrite IH by done. cbn [rev]. by rewrite <- app_assoc.
Qed.

Lemma shape_read n ds h : decimal n ds → 0 <= n < 2 ^ 63 →
  ∃ h', consumeShape (bytes_of ": (" ++ ds ++ bytes_of ",)" ++ h) = Ok ([n], h').
Proof.
  intros Hd Hn. unfold consumeShape.
  change (shape_text None (bytes_of ": (" ++ ds ++ bytes_of ",)" ++ h))
    with (shape_text (Some []) (ds ++ bytes_of ",)" ++ h)).
  destruct Hd as (H1 & H2 & H3 & H4). rewrite shape_digits by done. rewrite app_nil_r.
  change (bytes_of ",)" ++ h) with (44 :: 41 :: h). cbn [shape_text Z.eqb Pos.eqb fmap option_fmap option_map].
  destruct (Nat.eqb_spec (List.length (44 :: rev ds)) 1) as [Hl|Hl].
  { exfalso. cbn [List.length] in Hl. rewrite rev_length in Hl. destruct ds; [done|]. simpl in Hl. lia. }
  cbn [rev]. rewrite rev_involutive. cbn [res_bind].
  assert (decimal n ds) as Hd by done.
  rewrite split_on_one by (eapply decimal_no; [done|lia]).
  exists (41 :: h). cbn [shape_numbers]. rewrite (parseInt_decimal n) by done.
  destruct ds; [done|]. done.
Qed.

Lemma consumeDescr_ok mark text big dt h :
  order_mark big mark → type_of big text = Ok (big, dt.1, dt.2) ∧ 39 ∉ text →
  consumeDescr (bytes_of ": '" ++ (mark :: text) ++ 39 :: 44 :: h)
  = Ok (big, dt.1, dt.2, h).
Proof.
  intros Hm [Hty Hq].
  unfold consumeDescr, consumeHeaderString.
  assert (∀ l, split_at 39 (bytes_of ": '" ++ l) = Some (bytes_of ": ", l)) as -> by done.
  rewrite split_at_app.
  2:{ apply not_elem_of_cons. split; [|done]. unfold order_mark in Hm. destruct big; lia. }
  cbn [res_bind]. assert (split_at 44 (44 :: h) = Some ([], h)) as -> by done.
  unfold order_mark in Hm. destruct big.
  - subst mark. cbn [Z.eqb Pos.eqb orb]. by rewrite Hty.
  - destruct Hm as [-> | ->]; cbn [Z.eqb Pos.eqb orb]; by rewrite Hty.
Qed.

Lemma header_read mark text big dt n header :
  order_mark big mark → type_of big text = Ok (big, dt.1, dt.2) ∧ 39 ∉ text → npy_header mark text n header → 0 <= n < 2 ^ 63 →
  parseHeader header = Ok (big, dt.1, dt.2, false, [n]).
Proof.
  intros Hm Ht (ds & e & Hds & _ & ->) Hn. rewrite !ascii_bytes_of. unfold parseHeader.
  assert (∀ l, split_at 123 (bytes_of "{'descr': '" ++ l) = Some ([], bytes_of "'descr': '" ++ l)) as -> by done.
  cbn [entries].
  assert (∀ l, consumeHeaderString (bytes_of "'descr': '" ++ l) = Ok (bytes_of "descr", bytes_of ": '" ++ l))
    as -> by done.
  cbn [res_bind]. rewrite decide_True by done.
  assert (∀ l, mark :: text ++ bytes_of "', 'fortran_order': False, 'shape': (" ++ l
    = (mark :: text) ++ 39 :: 44 :: bytes_of " 'fortran_order': False, 'shape': (" ++ l) as -> by done.
  rewrite (consumeDescr_ok mark text big dt) by done. cbn [res_bind].
  assert (∀ l, consumeHeaderString (bytes_of " 'fortran_order': False, 'shape': (" ++ l)
    = Ok (bytes_of "fortran_order", bytes_of ": False, 'shape': (" ++ l)) as -> by done.
  cbn [res_bind]. rewrite decide_False, decide_True by done.
  assert (∀ l, consumeBool (bytes_of ": False, 'shape': (" ++ l) = Ok (false, bytes_of " 'shape': (" ++ l))
    as -> by done.
  cbn [res_bind].
  assert (∀ l, consumeHeaderString (bytes_of " 'shape': (" ++ l) = Ok (bytes_of "shape", bytes_of ": (" ++ l))
    as -> by done.
  cbn [res_bind]. rewrite decide_False, decide_False, decide_True by done.
  rewrite (ascii_bytes_of ",)"). destruct (shape_read n ds e Hds Hn) as [h' ->]. done.
Qed.

(** * Words *)
Lemma value_le_eq bs : value_le bs = le_value bs.
Proof. induction bs; [done|]. cbn. by f_equal. Qed.

Lemma word_le k v bs : word false k v bs → List.length bs = k ∧ le_value bs = v mod 2 ^ (8 * Z.of_nat k).
Proof.
  intros (H1 & _ & H3). split; [done|]. rewrite <- value_le_eq, H3.
  f_equal. rewrite Z.pow_mul_r by lia. done.
Qed.

Lemma validate_app h rest : validateHeader h (h ++ rest) = Ok rest.
Proof.
  unfold validateHeader. rewrite read_n_app by done. cbn [res_bind]. by rewrite decide_True.
Qed.

Lemma info_gen mark text big dt n header data file :
  order_mark big mark → type_of big text = Ok (big, dt.1, dt.2) ∧ 39 ∉ text → npy_header mark text n header → 0 <= n < 2 ^ 63 →
  npy_container header data file →
  readPageInfo file = Ok (big, dt.1, dt.2, n, data).
Proof.
  intros Hm Ht Hh Hn (len & Hlen & Hl & _ & ->). unfold readPageInfo.
  rewrite ascii_bytes_of.
  change (0x93 :: bytes_of "NUMPY" ++ [1; 0] ++ len ++ header ++ data)
    with (NUMPY_MAGIC ++ NUMPY_MAJOR ++ NUMPY_MINOR ++ len ++ header ++ data).
  rewrite validate_app. cbn [res_bind]. rewrite validate_app. cbn [res_bind].
  rewrite validate_app. cbn [res_bind].
  apply word_le in Hlen as [Hlen Hv]. rewrite read_n_app by done. cbn [res_bind].
  rewrite Hv, Z.mod_small by (change (2 ^ (8 * Z.of_nat 2)) with 65536; lia).
  rewrite read_n_app by lia. cbn [res_bind].
  rewrite (header_read mark text big dt n) by done. done.
Qed.

Lemma info_read mark text big t n header data file :
  order_mark big mark → type_text t text → npy_header mark text n header → 0 <= n < 2 ^ 63 →
  npy_container header data file →
  readPageInfo file = Ok (big, (desc_of t).1, (desc_of t).2, n, data).
Proof. intros Hm Ht. eapply info_gen; [done|]. by apply type_read. Qed.

Lemma info_objects n header data file :
  npy_header 124 (ascii_bytes "O8") n header → 0 <= n < 2 ^ 63 →
  npy_container header data file →
  readPageInfo file = Ok (false, D_OBJECT, -1, n, data).
Proof.
  apply (info_gen 124 (ascii_bytes "O8") false (D_OBJECT, -1)); [by right|].
  split; [done|]. change (ascii_bytes "O8") with [79; 56]. set_solver by lia.
Qed.

Lemma read_words_ok k chunks rest : Forall (λ c, List.length c = k) chunks →
  read_words k (List.length chunks) (concat chunks ++ rest) = Ok (map le_value chunks).
Proof.
  induction chunks as [|c chunks IH]; intros H; [done|].
  apply list.Forall_cons in H as [Hc H]. cbn [List.length read_words concat].
  rewrite <- app_assoc, read_n_app by done. cbn [res_bind]. by rewrite IH.
Qed.

Lemma primitive_ok k chunks n : Forall (λ c, List.length c = k) chunks → n = zlen chunks →
  readPrimitiveBuffer k n (concat chunks) = Ok (map le_value chunks).
Proof.
  intros H ->. unfold readPrimitiveBuffer. rewrite (proj2 (Z.ltb_ge _ _)) by lia.
  rewrite Nat2Z.id. rewrite <- (app_nil_r (concat chunks)). by apply read_words_ok.
Qed.

Lemma signed_mod k v : (0 < k)%nat → - 2 ^ (8 * Z.of_nat k - 1) <= v < 2 ^ (8 * Z.of_nat k - 1) →
  signed k (v mod 2 ^ (8 * Z.of_nat k)) = v.
Proof.
  intros Hk Hv. unfold signed.
  assert (2 ^ (8 * Z.of_nat k) = 2 * 2 ^ (8 * Z.of_nat k - 1)) as Hp.
  { rewrite <- Z.pow_succ_r by lia. f_equal. lia. }
  rewrite Hp. set (P := 2 ^ (8 * Z.of_nat k - 1)) in *. clearbody P.
  destruct (Z.lt_ge_cases v 0).
  - rewrite <- (Z.mod_unique v (2 * P) (-1) (v + 2 * P)) by lia.
    rewrite (proj2 (Z.ltb_ge _ _)) by lia. lia.
  - rewrite Z.mod_small by lia. by rewrite (proj2 (Z.ltb_lt _ _)) by lia.
Qed.

(** * Elements *)
Lemma chunks_ok widen t k f cs chunks :
  (∀ c bs, stored widen false t c bs → List.length bs = k ∧ f (le_value bs) = shrunk c) →
  Forall2 (stored widen false t) cs chunks →
  Forall (λ c, List.length c = k) chunks ∧ zlen cs = zlen chunks
  ∧ map f (map le_value chunks) = map shrunk cs.
Proof.
  intros Hf H. induction H as [|c bs cs chunks Hc H (IH1 & IH2 & IH3)]; [done|].
  destruct (Hf c bs Hc) as [H1 H2]. split; [by constructor|]. split; [cbn [List.length]; lia|].
  cbn [map]. by rewrite H2, IH3.
Qed.

Lemma micros_split E us : 0 <= us < us_per_day →
  (E * us_per_day + us) / 1000000 / 86400 = E
  ∧ (E * us_per_day + us) / 1000000 mod 86400 = us / 1000000
  ∧ (E * us_per_day + us) mod 1000000 = us mod 1000000.
Proof. unfold us_per_day. intros H. Z.div_mod_to_equations. lia. Qed.

Lemma millis_split E us : 0 <= us < us_per_day → us mod 1000 = 0 →
  (E * us_per_day + us) / 1000 / 1000 / 86400 = E
  ∧ (E * us_per_day + us) / 1000 / 1000 mod 86400 = us / 1000000
  ∧ (E * us_per_day + us) / 1000 mod 1000 = us mod 1000000 / 1000.
Proof. unfold us_per_day. intros H. Z.div_mod_to_equations. lia. Qed.

Lemma us_bound d us : python_date d → 0 <= us < us_per_day →
  - 2 ^ 62 <= epoch_days d * us_per_day + us < 2 ^ 62.
Proof. intros Hd Hus. pose proof (epoch_bound d Hd). unfold us_per_day in *. lia. Qed.

Lemma datetime_cell d u us :
  CDateTime d ((us / 1000000 * 1000000000 + u) / 1000)
  = CDateTime d (us / 1000000 * 1000000 + u / 1000).
Proof. f_equal. Z.div_mod_to_equations. lia. Qed.

Lemma shrunk_time d us : CDateTime d (us / 1000000 * 1000000 + us mod 1000000 / 1000) = shrunk (CDateTime d us).
Proof. cbn [shrunk fraction]. f_equal. pose proof (Z.div_mod us 1000000). lia. Qed.

Definition time_of (u : time_unit) (v : Z) : ymd * Z :=
  match u with
  | Seconds => utc (signed 8 v) 0
  | Milliseconds => let '(s, m) := divmod (signed 8 v) 1000 in utc s (m * 1000)
  | Microseconds => let '(s, u) := divmod (signed 8 v) 1000000 in utc s u
  end.

Lemma stored_time widen u c bs : stored widen false (TTime u) c bs →
  List.length bs = 8%nat ∧
  (λ v, CDateTime (time_of u v).1 ((time_of u v).2 / 1000)) (le_value bs) = shrunk c.
Proof.
  intros H. inversion H as [| | | | | |u' d us bs' Hd Hus Hmod Hw]; subst.
  apply word_le in Hw as [Hlen ->]. split; [done|].
  change (2 ^ (8 * Z.of_nat 8)) with (2 ^ (8 * Z.of_nat 8)) in *.
  pose proof (us_bound d us Hd Hus) as Hb.
  assert (- 2 ^ (8 * Z.of_nat 8 - 1) <= (epoch_days d * us_per_day + us) / unit_us u < 2 ^ (8 * Z.of_nat 8 - 1)) as Hb'.
  { change (2 ^ (8 * Z.of_nat 8 - 1)) with (2 ^ 63). destruct u; cbn [unit_us]; Z.div_mod_to_equations; lia. }
  unfold time_of. cbv beta. rewrite !(signed_mod 8) by (done || lia).
  destruct Hd as [Hy Hv]. destruct u; cbn [unit_us] in *; unfold divmod, utc; cbn [fst snd].
  - destruct (micros_split (epoch_days d) us Hus) as (H1 & H2 & H3). rewrite H1, H2.
    rewrite date_of_epoch by done. rewrite datetime_cell, <- shrunk_time, Hmod. done.
  - destruct (millis_split (epoch_days d) us Hus Hmod) as (H1 & H2 & H3). rewrite H1, H2.
    rewrite <- Z.mod_eq by lia. rewrite H3. rewrite date_of_epoch by done.
    rewrite datetime_cell, <- shrunk_time. by rewrite Z.div_mul by lia.
  - rewrite Z.div_1_r in *. destruct (micros_split (epoch_days d) us Hus) as (H1 & H2 & H3). rewrite H1, H2.
    rewrite <- Z.mod_eq by lia. rewrite H3. rewrite date_of_epoch by done.
    by rewrite datetime_cell, <- shrunk_time.
Qed.

(** ** Texts *)
Lemma utf8_char_head c : code_point c → ∃ x l, utf8_char c = x :: l ∧ (x = 0 ↔ c = 0).
Proof.
  intros Hc. unfold utf8_char, code_point in *.
  repeat match goal with |- context [?a <? ?b] => destruct (Z.ltb_spec a b) end;
    eexists _, _; (split; [reflexivity|]); Z.div_mod_to_equations; lia.
Qed.

Lemma utf8_cons c cs : utf8 (c :: cs) = utf8_char c ++ utf8 cs.
Proof. done. Qed.
Lemma utf8_app a b : utf8 (a ++ b) = utf8 a ++ utf8 b.
Proof. unfold utf8. by rewrite map_app, concat_app. Qed.

Lemma until_last_zeros k : until_last (repeat 0 k) = [].
Proof. induction k as [|k IH]; [done|]. cbn [repeat until_last]. by rewrite IH. Qed.

Lemma until_last_app cs k : stdpp.list.last cs ≠ Some 0 → until_last (cs ++ repeat 0 k) = cs.
Proof.
  induction cs as [|c cs IH]; intros H; [apply until_last_zeros|].
  cbn [app until_last]. destruct cs as [|c' cs].
  - cbn [app]. rewrite until_last_zeros. rewrite (proj2 (Z.eqb_neq c 0)); [done|]. cbn in H. congruence.
  - rewrite IH by done. done.
Qed.

Lemma List_last_app (l : list Z) x : List.last (l ++ [x]) 0 = x.
Proof. by rewrite last_last. Qed.

Lemma last_eq (l : list Z) : List.last l 0 = default 0 (stdpp.list.last l).
Proof.
  induction l as [|x l IH]; [done|]. destruct l as [|y l]; [done|].
  change (List.last (x :: y :: l) 0) with (List.last (y :: l) 0). rewrite IH. done.
Qed.

Lemma rune_text_ok cs k : head cs ≠ Some 0 → stdpp.list.last cs ≠ Some 0 →
  rune_text (cs ++ repeat 0 k) = utf8 cs.
Proof.
  intros Hh Hl. unfold rune_text.
  destruct (Z.eqb_spec (List.last (cs ++ repeat 0 k) 0) 0) as [E|E]; cbn [negb].
  - destruct cs as [|c cs].
    + cbn [app]. destruct k; done.
    + cbn [app List.hd]. rewrite (proj2 (Z.eqb_neq c 0)) by (cbn in Hh; congruence).
      change (c :: cs ++ repeat 0 k) with ((c :: cs) ++ repeat 0 k). by rewrite until_last_app.
  - destruct k as [|k]; [cbn [repeat]; by rewrite app_nil_r|]. exfalso. apply E.
    replace (repeat 0 (S k)) with (repeat 0 k ++ [0]) by (by rewrite <- repeat_cons).
    by rewrite app_assoc, List_last_app.
Qed.

Lemma texts_ok sz (els : list (list Z)) fuel : (0 < sz)%nat → Forall (λ e, List.length e = sz) els →
  (List.length els <= fuel)%nat → texts fuel sz (concat els) = map rune_text els.
Proof.
  intros Hsz. revert fuel. induction els as [|e els IH]; intros fuel H Hf; [by destruct fuel|].
  apply list.Forall_cons in H as [He H]. cbn [List.length] in Hf. destruct fuel as [|fuel]; [lia|].
  cbn [concat texts map]. destruct (e ++ concat els) eqn:E.
  { apply app_eq_nil in E as [-> _]. simpl in He. lia. }
  rewrite <- E. rewrite take_app_alt, drop_app_alt by done. f_equal. apply IH; [done|lia].
Qed.

Lemma concat_length_eq {A} (els : list (list A)) sz : Forall (λ e, List.length e = sz) els →
  List.length (concat els) = (List.length els * sz)%nat.
Proof.
  induction els as [|e els IH]; intros H; [done|]. apply list.Forall_cons in H as [He H].
  cbn [concat List.length]. rewrite app_length, IH, He by done. lia.
Qed.

Lemma words4_ok rs ws : Forall code_point rs → Forall2 (word false 4) rs ws →
  Forall (λ c, List.length c = 4%nat) ws ∧ map le_value ws = rs.
Proof.
  intros Hr H. induction H as [|r w rs ws Hw H IH]; [done|].
  apply list.Forall_cons in Hr as [Hr Hrs]. destruct (IH Hrs) as [IH1 IH2].
  apply word_le in Hw as [Hl Hv]. split; [by constructor|]. cbn [map]. rewrite IH2, Hv. f_equal.
  apply Z.mod_small. change (2 ^ (8 * Z.of_nat 4)) with (2 ^ 32). unfold code_point in Hr. lia.
Qed.

Lemma zeros_code k : Forall code_point (repeat 0 k).
Proof. induction k; constructor; [unfold code_point; lia|done]. Qed.

Lemma utf8_head_nul cs : Forall code_point cs → head (utf8 cs) ≠ Some 0 → head cs ≠ Some 0.
Proof.
  destruct cs as [|c cs]; [done|]. intros Hc Hh [= ->]. apply Hh. done.
Qed.

(** the data of a page of texts *)
Lemma stored_texts widen n cs chunks :
  Forall2 (stored widen false (TUnicode n)) cs chunks →
  Forall (λ c, match c with CStr t => head t ≠ Some 0 | _ => True end) cs →
  ∃ els ws, concat chunks = concat ws ∧ Forall (λ c, List.length c = 4%nat) ws ∧
    map le_value ws = concat els ∧ Forall (λ e, List.length e = n) els ∧
    List.length els = List.length cs ∧ map CStr (map rune_text els) = cs.
Proof.
  induction 1 as [|c bs cs chunks Hc H IH]; intros Hn.
  { by exists [], []. }
  apply list.Forall_cons in Hn as [Hn1 Hn]. destruct (IH Hn) as (els & ws & E1 & E2 & E3 & E4 & E5 & E6).
  inversion Hc as [| | | |n' rs ws' Hr Hl Hlen Hws| |]; subst.
  destruct (words4_ok (rs ++ repeat 0 (n - List.length rs)) ws') as [F1 F2].
  { apply Forall_app. split; [done|apply zeros_code]. } { done. }
  exists ((rs ++ repeat 0 (n - List.length rs)) :: els), (ws' ++ ws). repeat split.
  - cbn [concat]. by rewrite E1, concat_app.
  - by apply Forall_app.
  - rewrite map_app, F2, E3. done.
  - constructor; [|done]. rewrite app_length, repeat_length. lia.
  - cbn [List.length]. lia.
  - cbn [map]. rewrite rune_text_ok; [done| |done]. by apply utf8_head_nul.
Qed.

(** * Reading *)
Section read.
  Context (checks : bool) (scalar : list Z → list Z → res cell) (widen : Z → Z).

  Lemma stored_int widen_ k c bs : (0 < k)%nat → stored widen_ false (TInt k) c bs →
    List.length bs = k ∧ (λ v, CInt (signed k v)) (le_value bs) = shrunk c.
  Proof.
    intros Hk H. inversion H as [|k' z bs' Hz Hw| | | | |]; subst.
    apply word_le in Hw as [Hl ->]. split; [done|]. cbv beta. by rewrite signed_mod.
  Qed.

  Lemma read_little t cs file :
    npy_file widen false t cs file → zlen cs < 2 ^ 63 →
    Forall (λ c, match c with CStr t => head t ≠ Some 0 | _ => True end) cs →
    (checks = true → ∀ n, t = TUnicode n → cs ≠ []) →
    ∃ p, readNumpy checks scalar file = Ok p ∧ elements widen p = map shrunk cs.
  Proof.
    intros (mark & text & header & chunks & Hm & Ht & Hh & Hc & Hf) Hn Hnul Hempty.
    unfold readNumpy.
    rewrite (info_read mark text false t (zlen cs) header (concat chunks) file) by (done || lia).
    cbn [res_bind]. destruct t as [|k|k|n| |u]; cbn [desc_of fst snd].
    - destruct (chunks_ok widen TBool 1 (λ v, CBool (negb (v =? 0))) cs chunks) as (H1 & H2 & H3); [|done|].
      { intros c bs H. inversion H; subst. split; [done|]. by destruct b. }
      rewrite H2, primitive_ok by done. eexists. split; [done|]. cbn [elements]. rewrite <- H3.
      by rewrite (map_map (λ v, negb (v =? 0)) CBool).
    - destruct Ht as [Hk Ht]. assert (0 < k)%nat by set_solver by lia.
      destruct (chunks_ok widen (TInt k) k (λ v, CInt (signed k v)) cs chunks) as (H1 & H2 & H3); [|done|].
      { intros c bs H0. by apply (stored_int widen). }
      unfold newIntNDArray. rewrite decide_True by set_solver by lia.
      rewrite Nat2Z.id, H2, primitive_ok by done. eexists. split; [done|]. cbn [elements]. rewrite <- H3.
      by rewrite (map_map (signed k) CInt).
    - destruct Ht as [Hk Ht].
      destruct (chunks_ok widen (TFloat k) k (λ v, CFloat (if (k =? 4)%nat then widen v else v)) cs chunks)
        as (H1 & H2 & H3); [|done|].
      { intros c bs H0. inversion H0 as [| |bits bs' Hb Hw|bits bs' Hb Hw| | |]; subst;
          apply word_le in Hw as [Hl ->]; (split; [done|]); cbn [Nat.eqb]; rewrite Z.mod_small by
          (first [change (2 ^ (8 * Z.of_nat 8)) with (2 ^ 64)|change (2 ^ (8 * Z.of_nat 4)) with (2 ^ 32)]; lia);
          done. }
      unfold newFloatNDArray. rewrite decide_True by set_solver by lia.
      rewrite Nat2Z.id, H2, primitive_ok by done. eexists. split; [done|]. cbn [elements]. by rewrite <- H3.
    - destruct Ht as [Hk Ht]. destruct (stored_texts widen n cs chunks Hc Hnul) as (els & ws & E1 & E2 & E3 & E4 & E5 & E6).
      unfold newUnicodeNDArray.
      assert ((zlen cs =? 0) && checks = false) as ->.
      { destruct checks; [|by rewrite andb_false_r]. rewrite andb_true_r. apply Z.eqb_neq.
        specialize (Hempty eq_refl n eq_refl). destruct cs; [done|]. simpl. lia. }
      assert (zlen ws = zlen cs * Z.of_nat n) as Hlen.
      { rewrite <- (map_length le_value ws), E3, (concat_length_eq els n), E5 by done. lia. }
      rewrite E1, primitive_ok by (done || lia). eexists. split; [done|]. cbn [elements].
      rewrite E3, Nat2Z.id.
      rewrite texts_ok; [|lia|done|rewrite (concat_length_eq els n) by done; nia].
      rewrite E6. clear -Hc. induction Hc as [|c bs cs chunks H _ IH]; [done|].
      cbn [map]. rewrite <- IH. f_equal. by inversion H.
    - destruct (chunks_ok widen TDays 8 (λ v, CDate (date_of_days (signed 8 v))) cs chunks) as (H1 & H2 & H3); [|done|].
      { intros c bs H. inversion H as [| | | | |d bs' Hd Hw|]; subst.
        apply word_le in Hw as [Hl ->]. split; [done|]. pose proof (epoch_bound d Hd).
        rewrite signed_mod; [|lia|change (2 ^ (8 * Z.of_nat 8 - 1)) with (2 ^ 63); lia].
        cbn [shrunk]. by rewrite date_of_epoch by apply Hd. }
      unfold newDateArray_Days.
      rewrite H2, primitive_ok by done. eexists. split; [done|]. cbn [elements]. rewrite <- H3.
      by rewrite (map_map (λ v, date_of_days (signed 8 v)) CDate).
    - destruct (chunks_ok widen (TTime u) 8 (λ v, CDateTime (time_of u v).1 ((time_of u v).2 / 1000)) cs chunks)
        as (H1 & H2 & H3); [|done|].
      { intros c bs H. by apply (stored_time widen). }
      rewrite <- H3.
      destruct u; cbn [fst snd]; unfold newDateTimeArray_Seconds, newDateTimeArray_Miliseconds, newDateTimeArray_Microseconds;
        rewrite H2, primitive_ok by done; (eexists; split; [done|]); cbn [elements];
        rewrite map_map; apply map_ext; intros v; done.
  Qed.

  Lemma info_of big t cs file : npy_file widen big t cs file → zlen cs < 2 ^ 63 →
    ∃ data, readPageInfo file = Ok (big, (desc_of t).1, (desc_of t).2, zlen cs, data).
  Proof.
    intros (mark & text & header & chunks & Hm & Ht & Hh & Hc & Hf) Hn. eexists.
    apply (info_read mark text big t (zlen cs) header (concat chunks) file); [done|done|done|lia|done].
  Qed.

  Lemma len_of big t cs file : npy_file widen big t cs file → zlen cs < 2 ^ 63 →
    getPageLen file = Ok (zlen cs).
  Proof.
    intros H Hn. destruct (info_of big t cs file H Hn) as [data Hi]. unfold getPageLen. by rewrite Hi.
  Qed.

  Definition kind_of_type (t : dtype) : kind :=
    match t with
    | TBool => KBool | TInt _ => KInt | TFloat _ => KFloat | TUnicode _ => KStr
    | TDays => KDate | TTime _ => KDateTime
    end.

  Lemma stored_kind big t c bs : stored widen big t c bs → kind_of c = kind_of_type t.
  Proof. by inversion 1. Qed.

  Lemma file_kinds big t cs chunks : Forall2 (stored widen big t) cs chunks →
    Forall (λ c, kind_of c = kind_of_type t) cs.
  Proof. induction 1 as [|c bs cs chunks H _ IH]; [done|]. constructor; [by eapply stored_kind|done]. Qed.

  Lemma kind_count_all cs k : Forall (λ c, kind_of c = k) cs → kind_count cs k = zlen cs.
  Proof.
    unfold kind_count, count_if. induction 1 as [|c cs Hc _ IH]; [done|].
    rewrite filter_cons_True by done. cbn [List.length]. lia.
  Qed.

  Lemma kind_count_other cs k k' : Forall (λ c, kind_of c = k) cs → k' ≠ k → kind_count cs k' = 0.
  Proof.
    intros H Hk. unfold kind_count, count_if. induction H as [|c cs Hc _ IH]; [done|].
    rewrite filter_cons_False by congruence. done.
  Qed.

  Lemma types_of_file big t cs file : npy_file widen big t cs file → zlen cs < 2 ^ 63 →
    ∃ ts, getPageTypes checks scalar file = Ok ts ∧ ∀ k, dget_or ts k 0 = kind_count cs k.
  Proof.
    intros H Hn. destruct (info_of big t cs file H Hn) as [data Hi].
    destruct H as (mark & text & header & chunks & Hm & Ht & Hh & Hc & Hf).
    pose proof (file_kinds _ _ _ _ Hc) as Hk.
    exists [(kind_of_type t, zlen cs)]. split.
    - unfold getPageTypes. rewrite Hi. cbn [res_bind]. destruct t as [| | | | |[]]; done.
    - intros k. unfold dget_or, dget.
      destruct (decide (k = kind_of_type t)) as [->|Hne].
      + by rewrite (kind_count_all cs) by done.
      + by rewrite (kind_count_other cs (kind_of_type t)) by done.
  Qed.
End read.

(** * Writing *)
Lemma le_value_mod k v : le_value (le_bytes k v) = v mod 256 ^ Z.of_nat k.
Proof.
  revert v. induction k as [|k IH]; intros v; cbn [le_bytes le_value].
  - change (256 ^ Z.of_nat 0) with 1. by rewrite Z.mod_1_r.
  - rewrite IH, Nat2Z.inj_succ, Z.pow_succ_r by lia.
    rewrite Z.rem_mul_r by (try apply Z.pow_nonzero; lia || apply Z.pow_pos_nonneg; lia). done.
Qed.

Lemma le_bytes_range k v : Forall (λ b, 0 <= b < 256) (le_bytes k v).
Proof.
  revert v. induction k as [|k IH]; intros v; cbn [le_bytes]; constructor; [|done].
  apply Z.mod_pos_bound. lia.
Qed.

Lemma le_word k v : word false k v (le_bytes k v).
Proof.
  split; [apply le_length|]. split; [apply le_bytes_range|]. by rewrite value_le_eq, le_value_mod.
Qed.

Lemma dec_length fuel n : (List.length (dec fuel n) <= fuel)%nat.
Proof.
  revert n. induction fuel as [|fuel IH]; intros n; [done|]. cbn [dec].
  destruct (n <? 10); [simpl; lia|]. rewrite app_length. specialize (IH (n / 10)). simpl. lia.
Qed.

Lemma header_written mark text n data :
  0 <= n < 2 ^ 63 → zlen text < 30 →
  ∃ header, npy_header mark text n header ∧
    npy_container header data (writeNumpyHeader (mark :: text) n ++ data).
Proof.
  intros Hn Ht. unfold writeNumpyHeader.
  set (h := bytes_of "{'descr': '" ++ (mark :: text) ++ bytes_of "', 'fortran_order': False, 'shape': ("
            ++ uint_text n ++ bytes_of ",)}").
  assert (zlen h < 200) as Hh.
  { unfold h. rewrite !app_length. pose proof (dec_length 20 n) as Hd. fold (uint_text n) in Hd.
    cbn [List.length bytes_of] in *. lia. }
  set (pad := 64 - _). 
  assert (1 <= pad <= 64 ∧ (10 + zlen h + pad) mod 64 = 0) as [Hp Hm].
  { unfold pad. change (zlen NUMPY_MAGIC + zlen NUMPY_MAJOR + zlen NUMPY_MINOR + 2) with 10.
    Z.div_mod_to_equations. lia. }
  exists (h ++ repeat 32 (Z.to_nat (pad - 1)) ++ [10]). split.
  - exists (uint_text n), (ascii_bytes "}" ++ repeat 32 (Z.to_nat (pad - 1)) ++ [10]).
    split; [apply uint_text_decimal; lia|]. split; [exists (Z.to_nat (pad - 1)); by right|].
    rewrite !(ascii_bytes_of "}"), (ascii_bytes_of ",)"), (ascii_bytes_of "{'descr': '"),
      (ascii_bytes_of "', 'fortran_order': False, 'shape': (").
    unfold h. rewrite <- !app_assoc. done.
  - exists (le_bytes 2 ((pad + zlen h) mod 2 ^ 16)).
    assert (zlen (h ++ repeat 32 (Z.to_nat (pad - 1)) ++ [10]) = pad + zlen h) as Hl.
    { rewrite !app_length, repeat_length. cbn [List.length]. lia. }
    rewrite Hl. split; [|split; [lia|split]].
    + rewrite Z.mod_small by lia. apply le_word.
    + rewrite <- Hm. f_equal. lia.
    + rewrite ascii_bytes_of. rewrite <- !app_assoc. done.
Qed.

(** ** UTF-8 *)
Lemma toRunes_char c rest : code_point c → toRunes (utf8_char c ++ rest) = c :: toRunes rest.
Proof.
  unfold code_point, utf8_char. intros Hc.
  destruct (Z.ltb_spec c 0x80).
  { cbn [app toRunes]. by rewrite (proj2 (Z.leb_le _ _)) by lia. }
  destruct (Z.ltb_spec c 0x800).
  { cbn [app toRunes]. rewrite (proj2 (Z.leb_gt _ _)) by (Z.div_mod_to_equations; lia).
    rewrite (proj2 (Z.eqb_eq _ 6)) by (Z.div_mod_to_equations; lia). f_equal. Z.div_mod_to_equations; lia. }
  destruct (Z.ltb_spec c 0x10000).
  { cbn [app toRunes]. rewrite (proj2 (Z.leb_gt _ _)) by (Z.div_mod_to_equations; lia).
    rewrite (proj2 (Z.eqb_neq _ 6)) by (Z.div_mod_to_equations; lia).
    rewrite (proj2 (Z.eqb_eq _ 14)) by (Z.div_mod_to_equations; lia). f_equal. Z.div_mod_to_equations; lia. }
  cbn [app toRunes]. rewrite (proj2 (Z.leb_gt _ _)) by (Z.div_mod_to_equations; lia).
  rewrite (proj2 (Z.eqb_neq _ 6)) by (Z.div_mod_to_equations; lia).
  rewrite (proj2 (Z.eqb_neq _ 14)) by (Z.div_mod_to_equations; lia).
  rewrite (proj2 (Z.eqb_eq _ 30)) by (Z.div_mod_to_equations; lia). f_equal. Z.div_mod_to_equations; lia.
Qed.

Lemma toRunes_utf8 cs : Forall code_point cs → toRunes (utf8 cs) = cs.
Proof.
  induction 1 as [|c cs Hc _ IH]; [done|]. rewrite utf8_cons, toRunes_char, IH by done. done.
Qed.

Lemma utf8_length cs : (List.length cs <= List.length (utf8 cs))%nat.
Proof.
  induction cs as [|c cs IH]; [done|]. rewrite utf8_cons, app_length. cbn [List.length].
  assert (1 <= List.length (utf8_char c))%nat; [|lia].
  unfold utf8_char. repeat case_match; simpl; lia.
Qed.

Lemma zeros_words k : repeat 0 (4 * k) = concat (map (le_bytes 4) (repeat 0 k)).
Proof.
  induction k as [|k IH]; [done|].
  replace (4 * S k)%nat with (4 + 4 * k)%nat by lia. rewrite repeat_app, IH. done.
Qed.

Lemma words_of rs : Forall2 (word false 4) rs (map (le_bytes 4) rs).
Proof. induction rs; constructor; [apply le_word|done]. Qed.

Lemma unicode_written widen cs n : Forall code_point cs → stdpp.list.last cs ≠ Some 0 →
  (List.length cs <= n)%nat →
  stored widen false (TUnicode n) (CStr (utf8 cs)) (writeNumpyUnicode (utf8 cs) (Z.of_nat n)).
Proof.
  intros Hc Hl Hn. unfold writeNumpyUnicode. rewrite toRunes_utf8 by done.
  replace (Z.to_nat (Z.of_nat n - zlen cs)) with (n - List.length cs)%nat by lia.
  rewrite zeros_words, <- concat_app, <- map_app. apply stored_text; [done|done|done|]. apply words_of.
Qed.

(** ** Pages *)
Lemma file_written widen big t mark text cs chunks :
  order_mark big mark → type_text t text → zlen text < 30 → zlen cs < 2 ^ 63 →
  Forall2 (stored widen big t) cs chunks →
  npy_file widen big t cs (writeNumpyHeader (mark :: text) (zlen cs) ++ concat chunks).
Proof.
  intros Hm Ht Hlen Hn Hc.
  destruct (header_written mark text (zlen cs) (concat chunks)) as (header & H1 & H2); [lia|done|].
  by exists mark, text, header, chunks.
Qed.

Lemma Forall2_map_l {A B C} (P : B → C → Prop) (f : A → B) (g : A → C) (Q : A → Prop) l :
  Forall Q l → (∀ x, Q x → P (f x) (g x)) → Forall2 P (map f l) (map g l).
Proof. intros H HP. induction H; constructor; auto. Qed.

Lemma size_text k : k ∈ [1; 2; 4; 8]%nat → ∃ d, uint_text (Z.of_nat k) = [d] ∧ decimal (Z.of_nat k) [d].
Proof.
  intros Hk. assert (decimal (Z.of_nat k) (uint_text (Z.of_nat k))) as Hd.
  { apply uint_text_decimal. set_solver by lia. }
  exists (48 + Z.of_nat k).
  assert (uint_text (Z.of_nat k) = [48 + Z.of_nat k]) as E.
  { rewrite !elem_of_cons, elem_of_nil in Hk. destruct Hk as [-> | [-> | [-> | [-> | []]]]]; done. }
  rewrite E in *. done.
Qed.

Lemma inDays_date d : inDays (toTime (d, 0)) = epoch_days d.
Proof.
  unfold inDays, toTime. cbn [fst snd]. rewrite Z.add_0_r. apply Z.quot_mul. done.
Qed.

Lemma inMicroseconds_time d ns : ns mod 1000 = 0 →
  inMicroseconds (toTime (d, ns)) = epoch_days d * us_per_day + ns / 1000.
Proof.
  intros H. unfold inMicroseconds, toTime. cbn [fst snd].
  replace (epoch_days d * ns_per_day + ns) with ((epoch_days d * us_per_day + ns / 1000) * 1000).
  - apply Z.quot_mul. done.
  - unfold ns_per_day, us_per_day. Z.div_mod_to_equations. lia.
Qed.

Section save.
  Context (widen : Z → Z).

  Lemma texts_padded els k : (0 < k)%nat →
    Forall (λ cs, Forall code_point cs ∧ (List.length cs <= k)%nat ∧ head cs ≠ Some 0
                  ∧ stdpp.list.last cs ≠ Some 0) els →
    let pad := λ cs, cs ++ repeat 0 (k - List.length cs) in
    Forall (λ e, List.length e = k) (map pad els)
    ∧ texts (List.length (concat (map pad els))) k (concat (map pad els)) = map utf8 els.
  Proof.
    intros Hk H pad.
    assert (Forall (λ e, List.length e = k) (map pad els)) as Hl.
    { apply Forall_map. eapply list.Forall_impl; [exact H|]. intros cs (_ & Hle & _). unfold pad, compose.
      rewrite app_length, repeat_length. lia. }
    split; [done|]. rewrite texts_ok; [|done|done|].
    - rewrite map_map. clear Hl. induction H as [|cs els (_ & _ & Hh & Hlast) _ IH]; [done|].
      cbn [map]. rewrite IH. f_equal. unfold pad. by apply rune_text_ok.
    - rewrite (concat_length_eq _ k) by done. nia.
  Qed.

  Lemma cells_of (buf : list cell) k :
    Forall (λ c, kind_of c = k) buf → Forall array_cell buf →
    Forall (λ c, kind_of c = k ∧ array_cell c) buf.
  Proof. intros H1 H2. induction H1; [done|]. apply list.Forall_cons in H2 as [? ?]. constructor; auto. Qed.

  Lemma primitive_saved buf t mark text dump k :
    order_mark false mark → type_text t text → zlen text < 30 → zlen buf < 2 ^ 63 →
    Forall (λ c, kind_of c = k) buf → Forall array_cell buf →
    (∀ c, kind_of c = k → array_cell c → stored widen false t c (dump c)) →
    npy_file widen false t buf (saveAsPrimitive buf (mark :: text) dump).
  Proof.
    intros Hm Ht Hl Hn Hk Ha Hd. unfold saveAsPrimitive. apply file_written; try done.
    rewrite <- (map_id buf) at 1. apply (Forall2_map_l _ (λ x, x) dump _ buf (cells_of buf k Hk Ha)).
    intros c [? ?]. by apply Hd.
  Qed.

  Lemma longest_spec (buf : list cell) l0 : 0 <= l0 →
    let text v := match v with CStr t => t | _ => [] end in
    let l := foldl (λ l v, Z.max l (zlen (text v))) l0 buf in
    l0 <= l ∧ Forall (λ c, match c with CStr t => zlen t <= l | _ => True end) buf
    ∧ ∀ B, l0 < B → Forall (λ c, match c with CStr t => zlen t < B | _ => True end) buf → l < B.
  Proof.
    revert l0. induction buf as [|c buf IH]; intros l0 Hl0; cbn zeta; cbn [foldl].
    { split; [lia|]. split; [constructor|]. auto. }
    destruct (IH (Z.max l0 (zlen (match c with CStr t => t | _ => [] end)))) as (H1 & H2 & H3); [lia|].
    split; [lia|]. split.
    - constructor; [destruct c; try done; lia|done].
    - intros B HB HF. apply list.Forall_cons in HF as [Hc HF]. apply H3; [|done]. destruct c; cbn [List.length] in *; lia.
  Qed.

  Lemma unicode_saved buf :
    zlen buf < 2 ^ 63 → Forall (λ c, kind_of c = KStr) buf → Forall array_cell buf →
    ∃ n, npy_file widen false (TUnicode n) buf (saveAsUnicode buf).
  Proof.
    intros Hn Hk Ha. unfold saveAsUnicode.
    set (l := foldl _ 1 buf).
    destruct (longest_spec buf 1) as (H1 & H2 & H3); [lia|]. cbv zeta in *. fold l in H1, H2, H3.
    assert (l < 2 ^ 29) as Hl.
    { apply H3; [lia|]. eapply list.Forall_impl; [exact Ha|]. intros c Hc. destruct c; try done. exact (proj1 Hc). }
    exists (Z.to_nat l). unfold gendtypeStr.
    change (bytes_of "<U" ++ uint_text l) with (60 :: (85 :: uint_text l)).
    apply file_written.
    - by left.
    - cbn [type_text]. rewrite Z2Nat.id by lia. split; [lia|]. exists (uint_text l).
      split; [apply uint_text_decimal; lia|done].
    - cbn [List.length]. pose proof (dec_length 20 l). unfold uint_text. lia.
    - done.
    - rewrite <- (map_id buf) at 1.
      assert (Forall (λ c, kind_of c = KStr ∧ array_cell c ∧ match c with CStr t => zlen t <= l | _ => True end) buf) as HF.
      { clearbody l. clear -Hk Ha H2. induction Hk; [done|]. apply list.Forall_cons in Ha as [? ?].
        apply list.Forall_cons in H2 as [? ?]. constructor; auto. }
      apply (Forall2_map_l _ (λ x, x) _ _ buf HF). intros c (Hck & Hca & Hcl).
      destruct c; try done. destruct Hca as [_ (cs & -> & Hcp & Hh & Hlast)].
      assert (writeNumpyUnicode (utf8 cs) l = writeNumpyUnicode (utf8 cs) (Z.of_nat (Z.to_nat l))) as ->
        by (by rewrite Z2Nat.id by lia).
      apply unicode_written; [done|done|].
      pose proof (utf8_length cs). lia.
  Qed.

  (** the table of types of a page of one kind *)
  Lemma dget_elem {V} (d : list (kind * V)) k v : NoDup d.*1 → (k, v) ∈ d → dget d k = Some v.
  Proof.
    induction d as [|[k' v'] d IH]; intros Hn Hin; [by apply elem_of_nil in Hin|].
    cbn [fmap list_fmap fst] in Hn. apply list.NoDup_cons in Hn as [Hn1 Hn2].
    cbn [dget]. apply elem_of_cons in Hin as [[= -> ->]|Hin].
    - by case_decide.
    - case_decide as Hk; [|by apply IH]. subst. exfalso. apply Hn1. apply elem_of_list_fmap.
      by exists (k', v).
  Qed.

  Lemma dget_elem_2 {V} (d : list (kind * V)) k v : dget d k = Some v → (k, v) ∈ d.
  Proof.
    induction d as [|[k' v'] d IH]; [done|]. cbn [dget]. case_decide as Hk.
    - intros [= <-]. subst. by left.
    - intros H. right. auto.
  Qed.

  Lemma one_type dtypes buf k :
    NoDup dtypes.*1 → (∀ k, dget_or dtypes k 0 = kind_count buf k) →
    buf ≠ [] → Forall (λ c, kind_of c = k) buf →
    filter (λ kv : kind * Z, kv.2 ≠ 0) dtypes = [(k, zlen buf)].
  Proof.
    intros Hn Hc Hb Hk.
    assert (zlen buf ≠ 0) as Hz by (destruct buf; [done|]; simpl; lia).
    assert (NoDup (filter (λ kv : kind * Z, kv.2 ≠ 0) dtypes)) as Hnd.
    { apply list.NoDup_filter. by eapply list.NoDup_fmap_1. }
    assert (∀ kv, kv ∈ filter (λ kv : kind * Z, kv.2 ≠ 0) dtypes → kv = (k, zlen buf)) as Hall.
    { intros [k' n] Hin. apply elem_of_list_filter in Hin as [Hne Hin]. cbn [snd] in Hne.
      specialize (Hc k'). unfold dget_or in Hc. rewrite (dget_elem dtypes k' n) in Hc by done. cbn in Hc.
      destruct (decide (k' = k)) as [->|Hne'].
      - by rewrite (kind_count_all buf k) in Hc by done; subst.
      - rewrite (kind_count_other buf k k') in Hc by done. done. }
    assert ((k, zlen buf) ∈ filter (λ kv : kind * Z, kv.2 ≠ 0) dtypes) as Hin.
    { apply elem_of_list_filter. split; [done|]. specialize (Hc k). rewrite (kind_count_all buf k) in Hc by done.
      unfold dget_or in Hc. apply dget_elem_2. destruct (dget dtypes k); simpl in Hc; congruence. }
    revert Hnd Hall Hin. generalize (filter (λ kv : kind * Z, kv.2 ≠ 0) dtypes). intros l Hnd Hall Hin.
    destruct l as [|x l]; [by apply elem_of_nil in Hin|].
    rewrite (Hall x) by left. destruct l as [|y l]; [done|]. exfalso.
    apply list.NoDup_cons in Hnd as [Hx _]. apply Hx. rewrite (Hall x), (Hall y); [left|right; left|left].
  Qed.

  Lemma present dtypes (buf : list cell) c :
    NoDup dtypes.*1 → (∀ k, dget_or dtypes k 0 = kind_count buf k) → c ∈ buf →
    ∃ n, (kind_of c, n) ∈ filter (λ kv : kind * Z, kv.2 ≠ 0) dtypes.
  Proof.
    intros Hn Hc Hin. specialize (Hc (kind_of c)).
    assert (kind_count buf (kind_of c) ≠ 0) as Hz.
    { unfold kind_count, count_if.
      assert (c ∈ filter (λ c', kind_of c' = kind_of c) buf) as H by (by apply elem_of_list_filter).
      destruct (filter _ buf); [by apply elem_of_nil in H|]. simpl. lia. }
    unfold dget_or in Hc. destruct (dget dtypes (kind_of c)) as [n|] eqn:E; [|simpl in Hc; congruence].
    exists n. apply elem_of_list_filter. split; [simpl in *; congruence|]. by apply dget_elem_2.
  Qed.

  Lemma saved_objects dtypes buf :
    NoDup dtypes.*1 → (∀ k, dget_or dtypes k 0 = kind_count buf k) → ¬ as_array buf →
    saveObjects buf dtypes = saveAsObjects buf.
  Proof.
    intros Hn Hc Hna. unfold saveObjects.
    assert (∀ c, c ∈ buf → ∃ n, (kind_of c, n) ∈ filter (λ kv : kind * Z, kv.2 ≠ 0) dtypes) as Hp
      by (intros; by eapply present).
    destruct (existsb _ _) eqn:E; [done|].
    destruct (filter (λ kv : kind * Z, kv.2 ≠ 0) dtypes) as [|[k n] [|]] eqn:F; [done| |done].
    destruct (0 <? n) eqn:En; [|done].
    destruct (decide (buf = [])) as [->|Hb].
    { exfalso. assert ((k, n) ∈ filter (λ kv : kind * Z, kv.2 ≠ 0) dtypes) as Hin by (rewrite F; by left).
      apply elem_of_list_filter in Hin as [Hne Hin]. specialize (Hc k). unfold dget_or in Hc.
      rewrite (dget_elem dtypes k n) in Hc by done. cbn in *. done. }
    assert (Forall (λ c, kind_of c = k) buf) as Hk.
    { apply list.Forall_forall. intros c Hcin. destruct (Hp c Hcin) as [m Hm].
      apply elem_of_list_singleton in Hm. congruence. }
    destruct k; try done; exfalso; apply Hna; (split; [done|]); eexists; (split; [|split; [|exact Hk]]); done.
  Qed.

  Lemma object_saved dtypes buf :
    NoDup dtypes.*1 → (∀ k, dget_or dtypes k 0 = kind_count buf k) →
    as_array buf → Forall array_cell buf → zlen buf < 2 ^ 63 →
    ∃ t, npy_file widen false t buf (saveObjects buf dtypes).
  Proof.
    intros Hn Hc (Hb & k & Hk1 & Hk2 & Hk) Ha Hlen. unfold saveObjects.
    rewrite (one_type dtypes buf k) by done. cbn [existsb fst].
    rewrite bool_decide_eq_false_2 by done. cbn [orb].
    rewrite (proj2 (Z.ltb_lt 0 _)) by (destruct buf; [done|]; simpl; lia).
    assert (8 ∈ [1; 2; 4; 8])%nat as H8 by set_solver.
    destruct (size_text 8 H8) as (d8 & E8 & D8).
    destruct k; try done.
    - exists TBool. change HeaderBooleanNDArray with (124 :: bytes_of "b1").
      apply (primitive_saved buf TBool 124 _ writeBool KBool); try done; [by right|].
      intros c Hkc Hac. destruct c; try done. constructor.
    - exists (TInt 8). change (HeaderIntNDArray 8) with (60 :: 105 :: uint_text (Z.of_nat 8)). rewrite E8.
      apply (primitive_saved buf (TInt 8) 60 _ writeInt KInt); try done; [by left| |].
      + split; [done|]. by exists [d8].
      + intros c Hkc Hac. destruct c; try done. constructor; [exact Hac|apply le_word].
    - exists (TFloat 8). change (HeaderFloatNDArray 8) with (60 :: 102 :: uint_text (Z.of_nat 8)). rewrite E8.
      apply (primitive_saved buf (TFloat 8) 60 _ writeFloat KFloat); try done; [by left| |].
      + split; [set_solver|]. by exists [d8].
      + intros c Hkc Hac. destruct c; try done. constructor; [exact Hac|apply le_word].
    - destruct (unicode_saved buf) as [n Hf]; try done. by exists (TUnicode n).
    - exists TDays. change HeaderDateNDArray with (60 :: bytes_of "M8[D]").
      apply (primitive_saved buf TDays 60 _ writeDate KDate); try done; [by left|].
      intros c Hkc Hac. destruct c; try done. cbn [writeDate]. rewrite inDays_date.
      constructor; [exact Hac|apply le_word].
    - exists (TTime Microseconds). change HeaderDateTimeNDArray with (60 :: bytes_of "M8[us]").
      apply (primitive_saved buf (TTime Microseconds) 60 _ writeDateTime KDateTime); try done; [by left|].
      intros c Hkc Hac. destruct c; try done. cbn [writeDateTime]. destruct Hac as [Hd Hus].
      rewrite inMicroseconds_time by (by rewrite Z.mod_mul). rewrite Z.div_mul by lia.
      constructor; [done|done|by rewrite Z.mod_1_r|]. cbn [unit_us]. rewrite Z.div_1_r. apply le_word.
  Qed.

  Lemma page_saved p : page_ok p → saved_as_array p →
    ∃ t, npy_file widen false t (elements widen p) (save p)
         ∧ ((∃ n, t = TUnicode n) → (∃ sh buf k, p = PUnicode sh buf k) ∨ elements widen p ≠ []).
  Proof.
    destruct p as [buf|k buf|k buf|n buf k|buf|buf|sh buf dtypes]; cbn [page_ok saved_as_array save elements].
    - intros Hn _. exists TBool. split; [|by intros [? ?]]. rewrite <- (map_length CBool buf). change HeaderBooleanNDArray with (124 :: bytes_of "b1").
      apply file_written; [by right|done|done|by rewrite map_length|].
      apply (Forall2_map_l _ CBool writeNumpyBool (λ _, True)); [by apply list.Forall_forall|].
      intros b _. constructor.
    - intros (Hk & Hr & Hn) _. exists (TInt k). split; [|by intros [? ?]]. rewrite <- (map_length CInt buf).
      destruct (size_text k Hk) as (d & E & D).
      change (HeaderIntNDArray k) with (60 :: 105 :: uint_text (Z.of_nat k)). rewrite E.
      apply file_written; [by left|split; [done|by exists [d]]|done|by rewrite map_length|].
      apply (Forall2_map_l _ CInt (le_bytes k) _ buf Hr). intros z Hz. constructor; [done|apply le_word].
    - intros (Hk & Hr & Hn) _. exists (TFloat k). split; [|by intros [? ?]]. 
      rewrite <- (map_length (λ b, CFloat (if (k =? 4)%nat then widen b else b)) buf).
      destruct (size_text k) as (d & E & D); [set_solver|].
      change (HeaderFloatNDArray k) with (60 :: 102 :: uint_text (Z.of_nat k)). rewrite E.
      apply file_written; [by left|split; [done|by exists [d]]|done|by rewrite map_length|].
      apply (Forall2_map_l _ _ (le_bytes k) _ buf Hr). intros b Hbits.
      rewrite !elem_of_cons, elem_of_nil in Hk. destruct Hk as [-> | [-> | []]]; cbn [Nat.eqb];
        constructor; try done; apply le_word.
    - intros (Hk & Hn & els & <- & -> & Hels) _. exists (TUnicode k). split; [|left; eauto].
      destruct (texts_padded els k) as [Hl Ht]; [lia|done|]. cbv zeta in Hl, Ht.
      unfold gendtypeStr.
      change (bytes_of "<U" ++ uint_text (Z.of_nat k)) with (60 :: 85 :: uint_text (Z.of_nat k)).
      rewrite Ht. rewrite map_map.
      rewrite take_ge.
      2:{ rewrite (concat_length_eq _ 4).
          2:{ apply Forall_map. apply list.Forall_forall. intros x _. apply le_length. }
          rewrite map_length, (concat_length_eq _ k), map_length by done. lia. }
      rewrite <- (map_length (λ cs, CStr (utf8 cs)) els).
      rewrite concat_map, map_map.
      replace (concat (concat (map (λ cs, map (le_bytes 4) (cs ++ repeat 0 (k - List.length cs))) els)))
        with (concat (map (λ cs, concat (map (le_bytes 4) (cs ++ repeat 0 (k - List.length cs)))) els)).
      2:{ clear. induction els as [|cs els IH]; [done|]. cbn [map concat]. rewrite concat_app, IH. done. }
      apply file_written.
      + by left.
      + split; [done|]. exists (uint_text (Z.of_nat k)). split; [apply uint_text_decimal; lia|done].
      + cbn [List.length]. pose proof (dec_length 20 (Z.of_nat k)). unfold uint_text. lia.
      + by rewrite map_length.
      + apply (Forall2_map_l _ (λ cs, CStr (utf8 cs)) _ _ els Hels). intros cs (Hcp & Hlen & Hh & Hlast).
        apply stored_text; [done|done|done|]. apply words_of.
    - intros (Hd & Hn) _. exists TDays. split; [|by intros [? ?]]. rewrite <- (map_length CDate buf).
      change HeaderDateNDArray with (60 :: bytes_of "M8[D]").
      apply file_written; [by left|done|done|by rewrite map_length|].
      apply (Forall2_map_l _ CDate _ _ buf Hd). intros d Hd'. rewrite inDays_date.
      constructor; [done|apply le_word].
    - intros (Hd & Hn) _. exists (TTime Microseconds). split; [|by intros [? ?]]. 
      rewrite <- (map_length (λ dt : ymd * Z, CDateTime dt.1 (dt.2 / 1000)) buf).
      change HeaderDateTimeNDArray with (60 :: bytes_of "M8[us]").
      apply file_written; [by left|done|done|by rewrite map_length|].
      apply (Forall2_map_l _ _ _ _ buf Hd). intros [d ns] (Hd' & Hns & Hm). cbn [fst snd] in *.
      rewrite inMicroseconds_time by done.
      constructor; [done| |by rewrite Z.mod_1_r|].
      + unfold ns_per_day, us_per_day in *. Z.div_mod_to_equations. lia.
      + cbn [unit_us]. rewrite Z.div_1_r. apply le_word.
    - intros (_ & Hn & Hc & Hcase) Has. destruct Hcase as [(_ & Ha & Hlen)|(Hna & _)]; [|done].
      destruct (object_saved dtypes buf) as [t Ht]; try done. exists t. split; [done|]. right. apply (proj1 Has).
  Qed.

  Lemma objects_saved sh buf dtypes : page_ok (PObject sh buf dtypes) → ¬ as_array buf →
    ∃ header, npy_header 124 (ascii_bytes "O8") (zlen buf) header ∧
      npy_container header (write_objects buf) (save (PObject sh buf dtypes)).
  Proof.
    intros (_ & Hn & Hc & Hcase) Hna. destruct Hcase as [(? & _)|(_ & _ & Hlen)]; [done|].
    cbn [save]. rewrite saved_objects by done. unfold saveAsObjects.
    change HeaderObjectNDArray with (124 :: ascii_bytes "O8").
    apply header_written; [lia|done].
  Qed.
End save.

Section both.
  Context (checks : bool) (scalar : list Z → list Z → res cell) (widen : Z → Z).

  Lemma shrunk_whole cs : Forall whole_seconds cs → map shrunk cs = cs.
  Proof.
    induction 1 as [|c cs Hc _ IH]; [done|]. cbn [map]. rewrite IH. f_equal.
    destruct c as [| | | | | | |d us]; try done. cbn [shrunk fraction]. unfold whole_seconds in Hc. rewrite Hc, Z.div_0_l by lia.
    f_equal. lia.
  Qed.

  Lemma utf8_head_zero cs : Forall code_point cs → head cs ≠ Some 0 → head (utf8 cs) ≠ Some 0.
  Proof.
    destruct cs as [|c cs]; [done|]. intros Hc Hh. apply list.Forall_cons in Hc as [Hc _].
    rewrite utf8_cons. intros H. apply Hh. cbn [head]. f_equal. revert H. unfold utf8_char.
    unfold code_point in Hc.
    repeat case_match; cbn [app head]; intros [= E]; Z.div_mod_to_equations; lia.
  Qed.

  Lemma elements_head p : page_ok p → saved_as_array p →
    Forall (λ c, match c with CStr t => head t ≠ Some 0 | _ => True end) (elements widen p).
  Proof.
    destruct p as [buf|k buf|k buf|n buf k|buf|buf|sh buf dtypes]; cbn [page_ok saved_as_array elements].
    4:{ intros (Hk & Hn & els & _ & -> & Hels) _.
        destruct (texts_padded els k) as [_ Ht]; [lia|done|]. cbv zeta in Ht. rewrite Ht.
        rewrite !Forall_map. eapply list.Forall_impl; [exact Hels|].
        intros cs (Hcp & _ & Hh & _). unfold compose.
        by apply utf8_head_zero. }
    6:{ intros (_ & Hnd & Hc & Hcase) Has. destruct Hcase as [(_ & Ha & Hlen)|(Hna & _)]; [|done].
        eapply list.Forall_impl; [exact Ha|]. intros c Hcell. destruct c; try done.
        destruct Hcell as (_ & cs & -> & Hcp & Hh & _). by apply utf8_head_zero. }
    all: intros _ _; rewrite Forall_map; by apply list.Forall_forall.
  Qed.

  Lemma elements_len p : page_ok p → zlen (elements widen p) < 2 ^ 63.
  Proof.
    destruct p as [buf|k buf|k buf|n buf k|buf|buf|sh buf dtypes]; cbn [page_ok elements]; rewrite ?map_length.
    - done.
    - by intros (_ & _ & ?).
    - by intros (_ & _ & ?).
    - intros (Hk & Hn & els & Hl & -> & Hels).
      destruct (texts_padded els k) as [_ Ht]; [lia|done|]. cbv zeta in Ht. rewrite Ht, map_length. lia.
    - by intros (_ & ?).
    - by intros (_ & ?).
    - intros (_ & _ & _ & [(_ & _ & ?)|(_ & _ & ?)]); lia.
  Qed.

  Lemma object_read n header cs file p :
    npy_header 124 (ascii_bytes "O8") n header → 0 <= n < 2 ^ 63 →
    npy_container header (write_objects cs) file →
    readPickledPage (nim_decoders checks scalar) (write_objects cs) = Ok p → p.1.1 = [n] →
    readNumpy checks scalar file = Ok (PObject [n] p.1.2 p.2)
    ∧ getPageTypes checks scalar file = Ok p.2.
  Proof.
    intros Hh Hn Hc Hr Hsh. unfold readNumpy, getPageTypes.
    rewrite (info_objects n header (write_objects cs)) by done. cbn [res_bind].
    unfold newObjectNDArray. rewrite Hr. destruct p as [[sh buf] dtypes]. cbn [fst snd] in *. subst sh.
    cbn [res_bind]. assert (calcShapeElements [n] = n) as -> by (unfold calcShapeElements; cbn; lia).
    by rewrite Z.eqb_refl.
  Qed.

  Lemma counts_kind_count ts cs : counts_exactly ts (map kind_of cs) → ∀ k, dget_or ts k 0 = kind_count cs k.
  Proof.
    intros [_ H] k. unfold dget_or.
    assert (kind_count cs k = count_if (λ k', k' = k) (map kind_of cs)) as E.
    { unfold kind_count, count_if. f_equal. clear H. induction cs as [|c cs IH]; [done|]. cbn [map].
      rewrite !filter_cons. destruct (decide (kind_of c = k)); cbn [List.length]; [f_equal|]; apply IH. }
    destruct (dget ts k) as [n|] eqn:Ed; cbn [default].
    - apply dget_elem_2, H in Ed as [_ Ed]. cbn. congruence.
    - destruct (decide (0 < kind_count cs k)) as [Hp|Hp].
      + exfalso. assert ((k, kind_count cs k) ∈ ts) as Hin by (apply H; split; congruence).
        clear -Ed Hin. induction ts as [|[k' v] ts IH]; [by apply elem_of_nil in Hin|].
        cbn [dget] in Ed. case_decide as Hk; [done|].
        apply elem_of_cons in Hin as [[= ? ?]|Hin]; [congruence|]. by apply IH.
      + assert (0 <= kind_count cs k) by (unfold kind_count, count_if; lia). cbn. lia.
  Qed.

  Lemma save_read p : page_ok p → Forall whole_seconds (elements widen p) →
    (checks = true → ∀ n buf k, p = PUnicode n buf k → n ≠ 0) →
    ∃ p' ts, readNumpy checks scalar (save p) = Ok p' ∧ elements widen p' = elements widen p
      ∧ getPageLen (save p) = Ok (zlen (elements widen p))
      ∧ getPageTypes checks scalar (save p) = Ok ts ∧ ∀ k, dget_or ts k 0 = kind_count (elements widen p) k.
  Proof.
    intros Hok Hw Hchk.
    assert (saved_as_array p ∨ ∃ sh buf dtypes, p = PObject sh buf dtypes ∧ ¬ as_array buf) as [Has|Hno].
    { destruct p as [| | | | | |sh buf dtypes]; try by left.
      destruct Hok as (_ & _ & _ & [(? & _)|(? & _)]); [by left|right]. eauto 6. }
    - destruct (page_saved widen p Hok Has) as (t & Hf & Htext).
      pose proof (elements_len p Hok) as Hlen.
      destruct (read_little checks scalar widen t _ _ Hf Hlen (elements_head p Hok Has)) as (p' & Hr & He).
      { intros Hc n -> Hnil. 
        destruct Htext as [(sh & buf & k & ->)|Hne]; [by eexists| |done].
        destruct Hok as (Hk & _ & els & Hl & -> & Hels).
        destruct (texts_padded els k) as [_ Ht]; [lia|done|]. cbv zeta in Ht.
        cbn [elements] in Hnil. rewrite Ht in Hnil. apply (Hchk Hc _ _ _ eq_refl).
        by destruct els. }
      destruct (types_of_file checks scalar widen _ _ _ _ Hf Hlen) as (ts & Ht & Hk).
      exists p', ts. split; [done|]. split; [by rewrite He, shrunk_whole|].
      split; [by eapply len_of|]. done.
    - destruct Hno as (sh & buf & dtypes & -> & Hna). cbn [elements] in *.
      destruct (objects_saved sh buf dtypes Hok Hna) as (header & Hh & Hc).
      destruct Hok as (_ & _ & _ & [(? & _)|(_ & Hcell & Hlen)]); [done|].
      destruct (nim_roundtrip checks scalar buf Hcell Hw Hlen) as (q & Hq & Hp1 & Hp2 & Hp3).
      destruct (object_read (zlen buf) header buf _ q Hh ltac:(lia) Hc Hq Hp1) as [Hr Ht].
      exists (PObject [zlen buf] q.1.2 q.2), q.2. split; [done|]. split; [done|].
      split; [|split; [done|by apply counts_kind_count]].
      unfold getPageLen. by rewrite (info_objects (zlen buf) header (write_objects buf)) by (done || lia).
  Qed.
End both.

Lemma read_whole checks scalar widen t cs file :
  npy_file widen false t cs file → zlen cs < 2 ^ 63 →
  Forall whole_seconds cs →
  Forall (λ c, match c with CStr t => head t ≠ Some 0 | _ => True end) cs →
  (checks = true → ∀ n, t = TUnicode n → cs ≠ []) →
  ∃ p, readNumpy checks scalar file = Ok p ∧ elements widen p = cs.
Proof.
  intros Hf Hn Hw Hnul He. destruct (read_little checks scalar widen t cs file Hf Hn Hnul He) as (p & Hp & E).
  exists p. split; [done|]. by rewrite E, shrunk_whole.
Qed.
