(** The writer of Model/PicklePage.v writes the format of Spec/PickleFormat.v. *)
From Coq Require Import Ascii String.
From Verif.Spec Require Import PickleFormat.
From Verif.Model Require Import PicklePage.
From Verif.Proof Require Import PicklePageProofs.
Local Open Scope Z_scope.

Lemma le_value_foldr bs : le_value bs = foldr (λ b higher, b + 256 * higher) 0 bs.
Proof. induction bs as [|b bs IH]; cbn; [done|]. by rewrite IH. Qed.
Lemma le_little k : ∀ v, 0 <= v < 256 ^ Z.of_nat k → little k v (le_bytes k v).
Proof.
  induction k as [|k IH]; intros v Hv.
  - cbn in *. split_and!; [done|constructor|cbn; lia].
  - rewrite Nat2Z.inj_succ, Z.pow_succ_r in Hv by lia.
    destruct (IH (v / 256)) as (H1 & H2 & H3).
    { split; [apply Z.div_pos; lia|apply Z.div_lt_upper_bound; lia]. }
    cbn [le_bytes]. split_and!.
    + cbn. by rewrite H1.
    + constructor; [apply Z.mod_pos_bound; lia|done].
    + cbn [foldr]. rewrite H3. pose proof (Z.div_mod v 256). lia.
Qed.
Lemma le_big k v : 0 <= v < 256 ^ Z.of_nat k → big k v (rev (le_bytes k v)).
Proof. intros H. unfold big. rewrite rev_involutive. by apply le_little. Qed.

Lemma bytes_of_ascii s : bytes_of s = ascii_bytes s.
Proof. unfold ascii_bytes. induction s as [|a s IH]; cbn; [done|]. by rewrite IH. Qed.
Lemma global_ok m n : writePickleGlobal (bytes_of m) (bytes_of n) = global m n.
Proof. unfold writePickleGlobal, global. rewrite !bytes_of_ascii. done. Qed.

Definition counter_ok (b : Z) := 0 <= b < 2 ^ 32.
Lemma binput_ok b : counter_ok b → memoised (writePickleBinput b).1 ∧ counter_ok (writePickleBinput b).2.
Proof.
  unfold counter_ok, writePickleBinput. intros H. cbn [fst snd]. split.
  - destruct (Z.leb_spec b 0xff).
    + apply (BINPUT b). apply (le_little 1). lia.
    + apply (LONG_BINPUT b). apply (le_little 4). lia.
  - apply Z.mod_pos_bound. lia.
Qed.

Lemma wseq_2 w ws p : (wseq (w :: ws) p).2 = (wseq ws (w p).2).2.
Proof. simpl. destruct (w p) as [b1 q]. simpl. by destruct (wseq ws q) as [b2 r]. Qed.

Lemma int_ok z : - 2 ^ 31 <= z < 2 ^ 31 → pickled (CInt z) (writePickleBinint z).
Proof.
  intros H. unfold writePickleBinint. destruct (Z.ltb_spec z 0) as [H0|H0].
  - assert (z mod 2 ^ 32 = z + 2 ^ 32) as E by (symmetry; apply (Z.mod_unique_pos _ _ (-1)); lia).
    apply (BININT z (z mod 2 ^ 32)); [|done|lia]. apply (le_little 4). rewrite E. lia.
  - destruct (Z.leb_spec z 0xff); [apply BININT1, (le_little 1); lia|].
    destruct (Z.leb_spec z 0xffff); [apply BININT2, (le_little 2); lia|].
    assert (z mod 2 ^ 32 = z) as E by (apply Z.mod_small; lia).
    apply (BININT z (z mod 2 ^ 32)); [|done|lia]. apply (le_little 4). rewrite E. lia.
Qed.

Lemma date_body_ok d : python_date d → date_body d (writePickleDateBody d).
Proof.
  intros H. rewrite (date_bytes_eq d H). destruct H as [Hy _].
  apply (DateBody d [yy d / 256; yy d mod 256]). unfold big, little. cbn. split_and!; [done| |].
  - repeat constructor; try (apply Z.mod_pos_bound; lia); [apply Z.div_pos; lia|apply Z.div_lt_upper_bound; lia].
  - pose proof (Z.div_mod (yy d) 256). lia.
Qed.
Lemma time_body_ok us : 0 <= us < us_per_day → time_body us (time_bytes us).
Proof.
  intros H. rewrite (time_bytes_eq us H). pose proof (time_fields us H) as (H1 & H2 & H3 & H4 & H5 & H6). rewrite H5 in H4, H6.
  apply (TimeBody us _ _ _ (us mod 1000000)); [done|done|done|done|lia|].
  unfold big, little. split_and!; [done| |].
  - cbn. repeat constructor; apply Z.mod_pos_bound; lia.
  - rewrite <- le_value_foldr. by apply us_bytes_value.
Qed.
Lemma date_body_length d body : date_body d body → zlen body = 4.
Proof. intros [y (H & _)]. rewrite app_length. rewrite rev_length in H. cbn. lia. Qed.
Lemma time_body_length us body : time_body us body → zlen body = 6.
Proof. intros [h mi s f bs _ _ _ _ _ (H & _)]. rewrite rev_length in H. cbn. lia. Qed.

(** the parts of a made object *)
Lemma object_ok m n body b : counter_ok b → zlen body < 256 →
  let w := [raw (writePickleGlobal (bytes_of m) (bytes_of n)); writePickleBinput; raw [PKL_SHORT_BINBYTES; zlen body]; raw body;
            writePickleBinput; raw [PKL_TUPLE1]; writePickleBinput; raw [PKL_REDUCE]; writePickleBinput] in
  made_of m n body (wseq w b).1 ∧ counter_ok (wseq w b).2.
Proof.
  intros Hb Hl. cbn zeta. rewrite !wseq_cons_1, !wseq_2. cbn [raw fst snd wseq].
  destruct (binput_ok b Hb) as [M1 C1]. destruct (binput_ok _ C1) as [M2 C2]. destruct (binput_ok _ C2) as [M3 C3].
  destruct (binput_ok _ C3) as [M4 C4]. split; [|done].
  rewrite global_ok, app_nil_r. by apply Made.
Qed.

Lemma cell_pickled c b : cell_ok c → counter_ok b → pickled c (writePicklePyObj c b).1 ∧ counter_ok (writePicklePyObj c b).2.
Proof.
  intros Hc Hb. destruct c as [| v | z | bits | t | d | us | d us]; cbn [writePicklePyObj cell_ok] in *.
  - split; [apply NONE|done].
  - split; [destruct v; [apply NEWTRUE|apply NEWFALSE]|done].
  - split; [by apply int_ok|done].
  - split; [|done]. apply BINFLOAT, (le_big 8). lia.
  - split; [|done]. apply BINUNICODE, (le_little 4). lia.
  - pose proof (date_body_ok d Hc) as Hd. pose proof (date_body_length _ _ Hd) as Hl.
    destruct (object_ok "datetime" "date" (writePickleDateBody d) b Hb) as [H1 H2]; [lia|]. rewrite Hl in H1, H2.
    split; [|exact H2]. by eapply Date.
  - pose proof (time_body_ok us Hc) as Hd. pose proof (time_body_length _ _ Hd) as Hl.
    destruct (object_ok "datetime" "time" (time_bytes us) b Hb) as [H1 H2]; [lia|]. rewrite Hl in H1, H2.
    unfold writePickleTime, writePickleTimeBody. rewrite !wseq_cons_1, !wseq_2 in *. cbn [wseq raw fst snd] in *.
    rewrite !app_nil_r in *. split; [|exact H2]. by eapply Time.
  - destruct Hc as [Hc Hc']. pose proof (date_body_ok d Hc) as Hd. pose proof (date_body_length _ _ Hd) as Hl.
    pose proof (time_body_ok us Hc') as Hd'. pose proof (time_body_length _ _ Hd') as Hl'.
    destruct (object_ok "datetime" "datetime" (writePickleDateBody d ++ time_bytes us) b Hb) as [H1 H2].
    { rewrite app_length. lia. }
    assert (zlen (writePickleDateBody d ++ time_bytes us) = 10) as E by (rewrite app_length; lia). rewrite E in H1, H2.
    unfold writePickleDatetime, writePickleTimeBody. rewrite !wseq_cons_1, !wseq_2 in *. cbn [wseq raw fst snd] in *.
    rewrite !app_nil_r in *. rewrite <- !app_assoc in *. split; [|exact H2]. by eapply Datetime.
Qed.

Lemma cells_pickled cs : Forall cell_ok cs → ∀ b, counter_ok b →
  ∃ items, (wseq (map writePicklePyObj cs) b).1 = concat items ∧ Forall2 pickled cs items ∧
    counter_ok (wseq (map writePicklePyObj cs) b).2.
Proof.
  induction 1 as [|c cs Hc _ IH]; intros b Hb.
  - exists []. split_and!; [done|constructor|done].
  - destruct (cell_pickled c b Hc Hb) as [H1 H2]. destruct (IH _ H2) as (items & I1 & I2 & I3).
    exists ((writePicklePyObj c b).1 :: items). cbn [map]. rewrite wseq_cons_1, wseq_2. split_and!; [|by constructor|done].
    cbn [concat]. by rewrite I1.
Qed.

Lemma start_ok n : (writePickleStart n 0).1 = array_start n (writePickleBinint n) ∧ counter_ok (writePickleStart n 0).2.
Proof.
  unfold writePickleStart. rewrite !wseq_cons_1, !wseq_2. split.
  - cbn [raw fst snd wseq]. rewrite app_nil_r. rewrite !global_ok. reflexivity.
  - vm_compute. split; [discriminate|reflexivity].
Qed.

Lemma page_pickled cs : Forall cell_ok cs → zlen cs < 2 ^ 31 → pickled_page cs (write_objects cs).
Proof.
  intros Hcs Hn. unfold write_objects. rewrite !wseq_cons_1. destruct (start_ok (zlen cs)) as [S1 S2]. rewrite S1.
  destruct (cells_pickled cs Hcs _ S2) as (items & I1 & I2 & I3). rewrite I1.
  destruct (binput_ok _ I3) as [M _].
  unfold writePickleFinish. rewrite !wseq_cons_1. cbn [raw fst snd]. change ((wseq [] _).1) with (@nil Z).
  rewrite !app_nil_r.
  refine (Page cs _ items _ (int_ok (zlen cs) _) I2 M). lia.
Qed.

(** ** Steps of the reader *)
Section steps.
  Context (dec : decoders).

  Lemma unread_opcode o bs st : o ∉ page_opcodes ++ other_opcodes → unpickle dec (o :: bs) st = Err OtherError.
  Proof.
    intros H. cbn [unpickle].
    assert (∀ k, k ∈ page_opcodes ++ other_opcodes → (o =? k) = false) as N.
    { intros k Hk. apply Z.eqb_neq. intros ->. done. }
    repeat match goal with |- (if o =? ?k then _ else _) = _ =>
      rewrite (N k) by (apply (bool_decide_unpack _); vm_compute; exact I) end.
    done.
  Qed.

  Lemma one_byte i b : little 1 i b → ∀ bs, read_n 1 (b ++ bs) = Ok (b, bs) ∧ le_value b = i.
  Proof.
    intros (H1 & _ & H3) bs. rewrite le_value_foldr. split; [|done]. unfold read_n. rewrite app_length, H1. cbn [plus].
    destruct b as [|x [|y b]]; [done| |done]. done.
  Qed.
  Lemma four_bytes i b : little 4 i b → ∀ bs, read_n 4 (b ++ bs) = Ok (b, bs) ∧ le_value b = i.
  Proof.
    intros (H1 & _ & H3) bs. rewrite le_value_foldr. split; [|done].
    do 4 (destruct b as [|? b]; [done|]). destruct b; [|done]. done.
  Qed.

  Lemma step_binget i b bs o st : little 1 i b → dget (memo st) i = Some o →
    unpickle dec (op "h" :: b ++ bs) st = Ok (Running bs (Vm (o :: stack st) (metastack st) (memo st))).
  Proof.
    intros H1 H2. change (unpickle dec (op "h" :: b ++ bs) st) with (res_bind (read_n 1 (b ++ bs)) (λ '(i, bs), get (le_value i) bs st)).
    destruct (one_byte i b H1 bs) as [-> E]. cbn [res_bind]. unfold get. rewrite E, H2. done.
  Qed.
  Lemma step_long_binget i b bs o st : little 4 i b → i < 2 ^ 31 → dget (memo st) i = Some o →
    unpickle dec (op "j" :: b ++ bs) st = Ok (Running bs (Vm (o :: stack st) (metastack st) (memo st))).
  Proof.
    intros H1 Hi H2.
    change (unpickle dec (op "j" :: b ++ bs) st) with (res_bind (read_n 4 (b ++ bs)) (λ '(i, bs), get (as_int32 (le_value i)) bs st)).
    destruct (four_bytes i b H1 bs) as [-> E]. cbn [res_bind]. unfold get, as_int32. rewrite E.
    destruct (Z.ltb_spec i (2 ^ 31)); [|lia]. rewrite H2. done.
  Qed.
  Lemma step_append bs v l s meta mem :
    unpickle dec (op "a" :: bs) (Vm (v :: OList l :: s) meta mem) = Ok (Running bs (Vm (OList (l ++ [v]) :: s) meta mem)).
  Proof. reflexivity. Qed.
  Lemma step_tuple2 bs b a s meta mem :
    unpickle dec (134 :: bs) (Vm (b :: a :: s) meta mem) = Ok (Running bs (Vm (OTuple [a; b] :: s) meta mem)).
  Proof. reflexivity. Qed.
  Lemma step_empty bs st :
    unpickle dec (op ")" :: bs) st = Ok (Running bs (Vm (OEmptyTuple [] :: stack st) (metastack st) (memo st))) ∧
    unpickle dec (op "}" :: bs) st = Ok (Running bs (Vm (ODict :: stack st) (metastack st) (memo st))) ∧
    unpickle dec (143 :: bs) st = Ok (Running bs (Vm (OSet [] :: stack st) (metastack st) (memo st))).
  Proof. done. Qed.
End steps.
