(** Pages of objects: what is written is read back. *)
From Coq Require Import String.
From Verif.Model Require Import PicklePage.
From Verif.Proof Require Import DictLemmas SmallProofs DatesProofs.
Local Open Scope Z_scope.

Lemma read_n_app a rest n : List.length a = n → read_n n (a ++ rest) = Ok (a, rest).
Proof.
  intros <-. unfold read_n. rewrite (proj2 (Nat.ltb_ge _ _)) by (rewrite app_length; lia).
  by rewrite take_app, drop_app.
Qed.

Ltac read_le :=
  match goal with
  | |- context [le_bytes ?k ?v ++ ?r] => rewrite (read_n_app (le_bytes k v) r k) by apply le_length
  end.

Section reader.
  Context (dec : decoders).

  Definition reach (bs : list Z) (st : vm) (bs' : list Z) (st' : vm) : Prop :=
    ∀ f, (List.length bs ≤ f)%nat →
      ∃ f', (List.length bs' ≤ f')%nat ∧ unpickle_loop dec f bs st = unpickle_loop dec f' bs' st'.

  Lemma reach_refl bs st : reach bs st bs st.
  Proof. intros f Hf. by exists f. Qed.

  Lemma reach_trans bs st bs1 st1 bs2 st2 :
    reach bs st bs1 st1 → reach bs1 st1 bs2 st2 → reach bs st bs2 st2.
  Proof.
    intros H1 H2 f Hf. destruct (H1 f Hf) as (f1 & Hf1 & ->).
    destruct (H2 f1 Hf1) as (f2 & Hf2 & ->). by exists f2.
  Qed.

  Lemma reach_step bs st bs' st' :
    unpickle dec bs st = Ok (Running bs' st') → (List.length bs' < List.length bs)%nat →
    reach bs st bs' st'.
  Proof.
    intros H Hl [|f] Hf; [lia|]. exists f. split; [lia|]. simpl. by rewrite H.
  Qed.

  (** [w] takes the stacks [s], [m] to [s'], [m'] *)
  Definition runs (w : writer) (s : list obj) (m : list (list obj)) (s' : list obj) (m' : list (list obj)) :=
    ∀ p rest mem, ∃ mem', reach ((w p).1 ++ rest) (Vm s m mem) rest (Vm s' m' mem').

  (** [w] makes the reader raise *)
  Definition fails (w : writer) (s : list obj) (m : list (list obj)) (e : exn) :=
    ∀ p rest mem f, (List.length ((w p).1 ++ rest) ≤ f)%nat →
      unpickle_loop dec f ((w p).1 ++ rest) (Vm s m mem) = Err e.

  Lemma wseq_cons_1 w ws p : (wseq (w :: ws) p).1 = (w p).1 ++ (wseq ws (w p).2).1.
  Proof. simpl. destruct (w p) as [b1 q]. simpl. by destruct (wseq ws q) as [b2 r]. Qed.

  Lemma runs_nil s m : runs (wseq []) s m s m.
  Proof. intros p rest mem. exists mem. apply reach_refl. Qed.

  Lemma runs_cons w ws s m s1 m1 s2 m2 :
    runs w s m s1 m1 → runs (wseq ws) s1 m1 s2 m2 → runs (wseq (w :: ws)) s m s2 m2.
  Proof.
    intros H1 H2 p rest mem. rewrite wseq_cons_1, <- app_assoc.
    destruct (H1 p ((wseq ws (w p).2).1 ++ rest) mem) as [mem1 R1].
    destruct (H2 (w p).2 rest mem1) as [mem2 R2]. exists mem2. by eapply reach_trans.
  Qed.

  Lemma fails_head w ws s m e : fails w s m e → fails (wseq (w :: ws)) s m e.
  Proof.
    intros H p rest mem f Hf. revert Hf. rewrite wseq_cons_1, <- app_assoc. apply H.
  Qed.

  Lemma fails_cons w ws s m s1 m1 e :
    runs w s m s1 m1 → fails (wseq ws) s1 m1 e → fails (wseq (w :: ws)) s m e.
  Proof.
    intros H1 H2 p rest mem f. rewrite wseq_cons_1, <- app_assoc. intros Hf.
    destruct (H1 p ((wseq ws (w p).2).1 ++ rest) mem) as [mem1 R1].
    destruct (R1 f Hf) as (f1 & Hf1 & ->). by apply H2.
  Qed.

  (** a single instruction *)
  Lemma runs_raw b s m s' m' :
    (∀ rest mem, unpickle dec (b ++ rest) (Vm s m mem) = Ok (Running rest (Vm s' m' mem))) →
    b ≠ [] → runs (raw b) s m s' m'.
  Proof.
    intros H Hb p rest mem. exists mem. unfold raw. simpl. apply reach_step; [apply H|].
    rewrite app_length. destruct b; [done|]. simpl. lia.
  Qed.

  Lemma fails_raw b s m e :
    (∀ rest mem, unpickle dec (b ++ rest) (Vm s m mem) = Err e) → b ≠ [] → fails (raw b) s m e.
  Proof.
    intros H Hb p rest mem f. unfold raw. simpl. intros Hf.
    destruct f as [|f].
    { destruct b; [done|]. simpl in Hf. lia. }
    simpl. by rewrite H.
  Qed.

  Lemma runs_binput o s m : runs writePickleBinput (o :: s) m (o :: s) m.
  Proof.
    intros p rest mem. unfold writePickleBinput. cbn [fst].
    case_match.
    - eexists. apply reach_step; [|rewrite app_length; cbn; lia].
      rewrite <- app_comm_cons. unfold unpickle.
      read_le. reflexivity.
    - eexists. apply reach_step; [|rewrite app_length; cbn; lia].
      rewrite <- app_comm_cons. unfold unpickle.
      read_le. reflexivity.
  Qed.

  Lemma runs_int z s m : - 2 ^ 31 <= z < 2 ^ 31 →
    runs (raw (writePickleBinint z)) s m (OCell (CInt z) :: s) m.
  Proof.
    intros Hz. apply runs_raw; [|unfold writePickleBinint; by repeat case_match].
    intros rest mem. unfold writePickleBinint.
    destruct (Z.ltb_spec z 0) as [Hn|Hn]; [|destruct (Z.leb_spec z 0xff); [|destruct (Z.leb_spec z 0xffff)]];
      rewrite <- app_comm_cons; unfold unpickle; read_le;
      cbn -[le_bytes le_value as_int32 Z.pow]; unfold push; simpl stack; simpl metastack; simpl memo;
      do 6 f_equal.
    - rewrite le_roundtrip by (apply Z.mod_pos_bound; lia).
      replace (z mod 2 ^ 32) with (z + 2 ^ 32).
      + unfold as_int32. rewrite (proj2 (Z.ltb_ge _ _)) by lia. lia.
      + rewrite <- (Z_mod_plus_full z 1). rewrite Z.mod_small; lia.
    - apply le_roundtrip. simpl. lia.
    - apply le_roundtrip. simpl. lia.
    - rewrite Z.mod_small by lia. rewrite le_roundtrip by (change (256 ^ Z.of_nat 4) with (2 ^ 32); lia).
      unfold as_int32. by rewrite (proj2 (Z.ltb_lt _ _)) by lia.
  Qed.

  Lemma runs_float bits s m : 0 <= bits < 2 ^ 64 →
    runs (raw (writePickleBinfloat bits)) s m (OCell (CFloat bits) :: s) m.
  Proof.
    intros Hb. apply runs_raw; [|done]. intros rest mem. unfold writePickleBinfloat.
    rewrite <- app_comm_cons. unfold unpickle.
    rewrite (read_n_app _ _ 8) by (by rewrite rev_length, le_length).
    cbn -[le_bytes le_value rev Z.pow]. unfold push. simpl stack. simpl metastack. simpl memo.
    rewrite rev_involutive, le_roundtrip by (change (256 ^ Z.of_nat 8) with (2 ^ 64); lia). done.
  Qed.

  Lemma runs_text t s m : zlen t < 2 ^ 31 →
    runs (raw (writePickleBinunicode t)) s m (OCell (CStr t) :: s) m.
  Proof.
    intros Hb. apply runs_raw; [|done]. intros rest mem. unfold writePickleBinunicode.
    rewrite <- app_comm_cons, <- app_assoc. unfold unpickle.
    read_le.
    cbn -[le_bytes le_value read_n Z.pow Z.of_nat].
    rewrite le_roundtrip by (change (256 ^ Z.of_nat 4) with (2 ^ 32); lia).
    unfold as_int32. rewrite (proj2 (Z.ltb_lt _ _)) by lia. rewrite Nat2Z.id, read_n_app by done.
    done.
  Qed.

  Lemma runs_bytes b s m : zlen b < 256 →
    runs (raw (writePickleShortbinbytes b)) s m (OBytes b :: s) m.
  Proof.
    intros Hb. apply runs_raw; [|done]. intros rest mem. unfold writePickleShortbinbytes.
    rewrite <- app_comm_cons, <- app_assoc. unfold unpickle.
    read_le.
    cbn -[le_bytes le_value read_n Z.pow Z.of_nat].
    rewrite le_roundtrip by (change (256 ^ Z.of_nat 1) with 256; lia).
    rewrite Nat2Z.id, read_n_app by done. done.
  Qed.

  Lemma runs_bool b s m : runs (raw (writePickleBoolean b)) s m (OCell (CBool b) :: s) m.
  Proof. apply runs_raw; [|done]. intros. by destruct b. Qed.

  Lemma runs_none s m : runs (raw [PKL_NONE]) s m (OCell CNone :: s) m.
  Proof. apply runs_raw; [|done]. by intros. Qed.

  Lemma runs_tuple1 o s m : runs (raw [PKL_TUPLE1]) (o :: s) m (OTuple [o] :: s) m.
  Proof. apply runs_raw; [|done]. by intros. Qed.

  Lemma runs_tuple3 o1 o2 o3 s m :
    runs (raw [PKL_TUPLE3]) (o1 :: o2 :: o3 :: s) m (OTuple [o3; o2; o1] :: s) m.
  Proof. apply runs_raw; [|done]. by intros. Qed.

  Lemma runs_tuple s s1 m : runs (raw [PKL_TUPLE]) s (s1 :: m) (OTuple (rev s) :: s1) m.
  Proof. apply runs_raw; [|done]. by intros. Qed.

  Lemma runs_mark s m : runs (raw [PKL_MARK]) s m [] (s :: m).
  Proof. apply runs_raw; [|done]. by intros. Qed.

  Lemma runs_list s m : runs (raw [PKL_EMPTY_LIST]) s m (OList [] :: s) m.
  Proof. apply runs_raw; [|done]. by intros. Qed.

  Lemma runs_appends items l s m :
    runs (raw [PKL_APPENDS]) items ((OList l :: s) :: m) (OList (l ++ rev items) :: s) m.
  Proof. apply runs_raw; [|done]. by intros. Qed.

  Lemma runs_reduce fn args o s m : newReducePickle dec fn args = Ok o →
    runs (raw [PKL_REDUCE]) (args :: fn :: s) m (o :: s) m.
  Proof.
    intros H. apply runs_raw; [|done]. intros rest mem. rewrite <- app_comm_cons. unfold unpickle.
    cbn -[newReducePickle]. by rewrite H.
  Qed.

  Lemma fails_reduce fn args e s m : newReducePickle dec fn args = Err e →
    fails (raw [PKL_REDUCE]) (args :: fn :: s) m e.
  Proof.
    intros H. apply fails_raw; [|done]. intros rest mem. rewrite <- app_comm_cons. unfold unpickle.
    cbn -[newReducePickle]. by rewrite H.
  Qed.

  Lemma runs_build state inst o s m : setState inst state = Ok o →
    runs (raw [PKL_BUILD]) (OTuple state :: inst :: s) m (o :: s) m.
  Proof.
    intros H. apply runs_raw; [|done]. intros rest mem. rewrite <- app_comm_cons. unfold unpickle.
    cbn -[setState]. by rewrite H.
  Qed.

  Lemma runs_proto s m : runs (raw writePickleProto) s m s m.
  Proof. apply runs_raw; [|done]. by intros. Qed.

  Lemma readLine_app l rest : PKL_STRING_TERM ∉ l →
    readLine (l ++ PKL_STRING_TERM :: rest) = Ok (l, rest).
  Proof.
    induction l as [|c l IH]; intros Hl; [done|].
    apply not_elem_of_cons in Hl as [Hc Hl]. cbn [app readLine].
    rewrite (proj2 (Z.eqb_neq _ _)) by congruence. by rewrite IH.
  Qed.

  Lemma runs_global a b s m : PKL_STRING_TERM ∉ a → PKL_STRING_TERM ∉ b →
    runs (raw (writePickleGlobal a b)) s m (OGlobal a b :: s) m.
  Proof.
    intros Ha Hb. apply runs_raw; [|done]. intros rest mem. unfold writePickleGlobal.
    rewrite <- app_comm_cons, <- app_assoc, <- app_comm_cons, <- app_assoc. unfold unpickle.
    cbn -[readLine app]. rewrite readLine_app by done. cbn -[readLine app].
    change ([PKL_STRING_TERM] ++ rest) with (PKL_STRING_TERM :: rest).
    by rewrite readLine_app.
  Qed.

  Lemma runs_ext w w' s m s' m' :
    (∀ p, (w p).1 = (w' p).1) → runs w' s m s' m' → runs w s m s' m'.
  Proof. intros He H p rest mem. rewrite He. apply H. Qed.

  Lemma fails_ext w w' s m e : (∀ p, (w p).1 = (w' p).1) → fails w' s m e → fails w s m e.
  Proof. intros He H p rest mem f. rewrite He. apply H. Qed.

  (** the value that the reader makes of the bytes written for [c] *)
  Definition decoded (c : cell) : res cell :=
    match c with
    | CDate d => d_date dec (writePickleDateBody d)
    | CTime us => d_time dec (time_bytes us)
    | CDateTime d us => d_datetime dec (writePickleDateBody d ++ time_bytes us)
    | c => Ok c
    end.

  Definition outcome_of (w : writer) (s : list obj) (m : list (list obj)) (r : res obj) : Prop :=
    match r with
    | Ok o => runs w s m (o :: s) m
    | Err e => fails w s m e
    end.

  (** the callable is on the stack, the bytes follow *)
  Lemma call_outcome fn b s m r : zlen b < 256 →
    newReducePickle dec fn (OTuple [OBytes b]) = r →
    match r with
    | Ok o => runs (wseq [raw (writePickleShortbinbytes b); writePickleBinput; raw [PKL_TUPLE1];
                          writePickleBinput; raw [PKL_REDUCE]; writePickleBinput]) (fn :: s) m (o :: s) m
    | Err e => fails (wseq [raw (writePickleShortbinbytes b); writePickleBinput; raw [PKL_TUPLE1];
                          writePickleBinput; raw [PKL_REDUCE]; writePickleBinput]) (fn :: s) m e
    end.
  Proof.
    intros Hb Hr. destruct r as [o|e].
    - eapply runs_cons; [by apply runs_bytes|].
      eapply runs_cons; [apply runs_binput|].
      eapply runs_cons; [apply runs_tuple1|].
      eapply runs_cons; [apply runs_binput|].
      eapply runs_cons; [by apply runs_reduce|].
      eapply runs_cons; [apply runs_binput|]. apply runs_nil.
    - eapply fails_cons; [by apply runs_bytes|].
      eapply fails_cons; [apply runs_binput|].
      eapply fails_cons; [apply runs_tuple1|].
      eapply fails_cons; [apply runs_binput|].
      by eapply fails_head, fails_reduce.
  Qed.

  Lemma date_length d : List.length (writePickleDateBody d) = 4%nat.
  Proof. reflexivity. Qed.

  Lemma time_length us : List.length (time_bytes us) = 6%nat.
  Proof. reflexivity. Qed.

  Lemma called_outcome w name b s m r :
    (∀ p, (w p).1 = (wseq (raw (writePickleGlobal (bytes_of "datetime") name) :: writePickleBinput ::
             [raw (writePickleShortbinbytes b); writePickleBinput; raw [PKL_TUPLE1];
              writePickleBinput; raw [PKL_REDUCE]; writePickleBinput]) p).1) →
    PKL_STRING_TERM ∉ name → zlen b < 256 →
    newReducePickle dec (OGlobal (bytes_of "datetime") name) (OTuple [OBytes b]) = r →
    outcome_of w s m r.
  Proof.
    intros Hw Hn Hb Hr.
    pose proof (call_outcome _ b s m _ Hb Hr) as H.
    assert (PKL_STRING_TERM ∉ bytes_of "datetime") by (vm_compute; set_solver).
    destruct r as [o|e].
    - eapply runs_ext; [apply Hw|].
      eapply runs_cons; [by apply runs_global|].
      eapply runs_cons; [by apply runs_binput|]. apply H.
    - eapply fails_ext; [apply Hw|].
      eapply fails_cons; [by apply runs_global|].
      eapply fails_cons; [by apply runs_binput|]. apply H.
  Qed.

  Lemma object_outcome c s m : cell_ok c →
    outcome_of (writePicklePyObj c) s m (res_map OCell (decoded c)).
  Proof.
    intros Hc. destruct c as [|b|z|bits|t|d|us|d us]; simpl in Hc; unfold writePicklePyObj, decoded.
    - apply runs_none.
    - apply runs_bool.
    - by apply runs_int.
    - by apply runs_float.
    - by apply runs_text.
    - eapply (called_outcome _ (bytes_of "date") (writePickleDateBody d)).
      + intros p. unfold writePickleDate. cbn -[writePickleBinput writePickleDateBody bytes_of].
        unfold writePickleShortbinbytes. rewrite date_length. reflexivity.
      + vm_compute. set_solver.
      + rewrite date_length. lia.
      + reflexivity.
    - eapply (called_outcome _ (bytes_of "time") (time_bytes us)).
      + intros p. unfold writePickleTime, writePickleTimeBody.
        rewrite !wseq_cons_1. unfold writePickleShortbinbytes. rewrite time_length.
        unfold raw. cbn -[writePickleBinput time_bytes bytes_of writePickleGlobal].
        rewrite !app_nil_r. reflexivity.
      + vm_compute. set_solver.
      + rewrite time_length. lia.
      + reflexivity.
    - eapply (called_outcome _ (bytes_of "datetime") (writePickleDateBody d ++ time_bytes us)).
      + intros p. unfold writePickleDatetime, writePickleTimeBody.
        rewrite !wseq_cons_1. unfold writePickleShortbinbytes.
        rewrite app_length, date_length, time_length.
        unfold raw. cbn -[writePickleBinput time_bytes bytes_of writePickleGlobal writePickleDateBody].
        rewrite !app_nil_r, <- !app_assoc. reflexivity.
      + vm_compute. set_solver.
      + rewrite app_length, date_length, time_length. lia.
      + reflexivity.
  Qed.

  Fixpoint decode_all (cs : list cell) : res (list cell) :=
    match cs with
    | [] => Ok []
    | c :: cs => res_bind (decoded c) (λ c, res_map (cons c) (decode_all cs))
    end.

  Lemma objects_outcome cs : ∀ s m, Forall cell_ok cs →
    match decode_all cs with
    | Ok cs' => runs (wseq (map writePicklePyObj cs)) s m (rev (map OCell cs') ++ s) m
    | Err e => fails (wseq (map writePicklePyObj cs)) s m e
    end.
  Proof.
    induction cs as [|c cs IH]; intros s m Hcs; [apply runs_nil|].
    apply list.Forall_cons in Hcs as [Hc Hcs]. cbn [decode_all map].
    pose proof (object_outcome c s m Hc) as Ho. unfold outcome_of in Ho.
    destruct (decoded c) as [c'|e]; cbn [res_map res_bind] in *.
    - specialize (IH (OCell c' :: s) m Hcs). destruct (decode_all cs) as [cs'|e]; cbn [res_map].
      + eapply runs_cons; [apply Ho|]. cbn [map rev]. rewrite <- app_assoc. apply IH.
      + eapply fails_cons; [apply Ho|]. apply IH.
    - by apply fails_head.
  Qed.

  Definition page_state (n : Z) : list obj :=
    [OCell (CBool false);
     ODtype (bytes_of "O8") [OCell (CInt 3); OCell (CStr (bytes_of "|")); OCell CNone; OCell CNone;
       OCell CNone; OCell (CInt (-1)); OCell (CInt (-1)); OCell (CInt 63)];
     OTuple [OCell (CInt n)]; OCell (CInt 1)].

  Ltac instr :=
    eapply runs_cons;
    [first [ apply runs_binput | apply runs_proto | apply runs_bool | apply runs_none
           | apply runs_tuple1 | apply runs_tuple3 | apply runs_tuple | apply runs_mark | apply runs_list
           | apply runs_int; lia
           | apply runs_text; vm_compute; reflexivity
           | apply runs_bytes; vm_compute; reflexivity
           | apply runs_global; vm_compute; set_solver
           | apply runs_reduce; reflexivity
           | apply runs_build; reflexivity ]|].

  Lemma start_runs n : 0 <= n < 2 ^ 31 →
    runs (writePickleStart n) [] []
      (if 0 <? n then [] else OList [] :: page_state n)
      (if 0 <? n then [OList [] :: page_state n; [OArray [] [] []]] else [[OArray [] [] []]]).
  Proof.
    intros Hn. intros p. revert p. unfold writePickleStart.
    match goal with
    | |- ∀ _ rest mem, ∃ mem', reach ((?w 0).1 ++ _) (Vm ?s ?m _) _ (Vm ?s' ?m' _) =>
        assert (runs w s m s' m') as H; [|intros _; apply H]
    end.
    do 45 instr. eapply runs_cons; [|apply runs_nil].
    destruct (Z.ltb_spec 0 n).
    - apply runs_mark.
    - intros p rest mem. exists mem. apply reach_refl.
  Qed.


  Lemma stop_loop o s m mem rest f : (List.length (PKL_STOP :: rest) ≤ f)%nat →
    unpickle_loop dec f (PKL_STOP :: rest) (Vm (o :: s) m mem) = Ok o.
  Proof. intros Hf. destruct f as [|f]; [simpl in Hf; lia|]. reflexivity. Qed.

  Lemma page_loop_cells cs : ∀ buf d,
    page_loop (map OCell cs) buf d =
      Ok (buf ++ cs, fold_left (λ d c, dset d (kind_of c) (dget_or d (kind_of c) 0 + 1)) cs d).
  Proof.
    induction cs as [|c cs IH]; intros buf d; simpl; [by rewrite app_nil_r|].
    rewrite IH. by rewrite <- app_assoc.
  Qed.

  Lemma decode_all_length cs cs' : decode_all cs = Ok cs' → List.length cs' = List.length cs.
  Proof.
    revert cs'. induction cs as [|c cs IH]; intros cs' H; simpl in H; [by injection H as <-|].
    destruct (decoded c) as [c'|]; [|done]. simpl in H.
    destruct (decode_all cs) as [l|]; [|done]. simpl in H. injection H as <-. simpl. f_equal. by apply IH.
  Qed.

  Definition kinds_counted (cs : list cell) : list (kind * Z) :=
    fold_left (λ d c, dset d (kind_of c) (dget_or d (kind_of c) 0 + 1)) cs [].

  Lemma read_written cs : Forall cell_ok cs → zlen cs < 2 ^ 31 →
    readPickledPage dec (write_objects cs)
    = res_map (λ cs', ([zlen cs], cs', kinds_counted cs')) (decode_all cs).
  Proof.
    intros Hcs Hn. unfold readPickledPage, write_objects.
    set (ws := [writePickleStart (zlen cs); wseq (map writePicklePyObj cs); writePickleFinish (zlen cs)]).
    pose proof (start_runs (zlen cs)) as Hstart.
    pose proof (objects_outcome cs (if 0 <? zlen cs then [] else OList [] :: page_state (zlen cs))
      (if 0 <? zlen cs then [OList [] :: page_state (zlen cs); [OArray [] [] []]] else [[OArray [] [] []]])
      Hcs) as Hobjs.
    destruct (decode_all cs) as [cs'|e] eqn:Ed; cbn [res_map].
    - pose proof (decode_all_length _ _ Ed) as Hlen.
      set (arr := OArray [zlen cs] (bytes_of "O8") (map OCell cs')).
      assert (∀ s', s' = (if 0 <? zlen cs then rev (map OCell cs') else OList [] :: page_state (zlen cs)) →
        runs (wseq [raw (if 0 <? zlen cs then [PKL_APPENDS] else []); raw [PKL_TUPLE]; writePickleBinput;
                    raw [PKL_BUILD]]) s'
          (if 0 <? zlen cs then [OList [] :: page_state (zlen cs); [OArray [] [] []]] else [[OArray [] [] []]])
          [arr] []) as Hfin.
      { intros s' ->. eapply runs_cons.
        - instantiate (1 := [[OArray [] [] []]]).
          instantiate (1 := OList (map OCell cs') :: page_state (zlen cs)).
          destruct (Z.ltb_spec 0 (zlen cs)) as [Hp|Hp].
          + pose proof (runs_appends (rev (map OCell cs')) [] (page_state (zlen cs)) [[OArray [] [] []]]) as H.
            rewrite rev_involutive in H. apply H.
          + destruct cs'; [|simpl in Hlen; lia].
            intros p rest mem. exists mem. apply reach_refl.
        - eapply runs_cons; [apply runs_tuple|].
          eapply runs_cons; [apply runs_binput|].
          eapply runs_cons; [|apply runs_nil].
          apply runs_build. reflexivity. }
      assert (runs (wseq [writePickleStart (zlen cs); wseq (map writePicklePyObj cs);
          wseq [raw (if 0 <? zlen cs then [PKL_APPENDS] else []); raw [PKL_TUPLE]; writePickleBinput;
                    raw [PKL_BUILD]]]) [] [] [arr] []) as Hall.
      { eapply runs_cons; [apply Hstart; lia|].
        eapply runs_cons; [apply Hobjs|].
        eapply runs_cons; [|apply runs_nil]. apply Hfin.
        destruct (Z.ltb_spec 0 (zlen cs)) as [Hp|Hp]; [by rewrite app_nil_r|].
        destruct cs'; [done|simpl in Hlen; lia]. }
      destruct (Hall 0 [PKL_STOP] []) as [mem' HR].
      assert ((wseq ws 0).1 = (wseq [writePickleStart (zlen cs); wseq (map writePicklePyObj cs);
          wseq [raw (if 0 <? zlen cs then [PKL_APPENDS] else []); raw [PKL_TUPLE]; writePickleBinput;
                    raw [PKL_BUILD]]] 0).1 ++ [PKL_STOP]) as ->.
      { unfold ws, writePickleFinish. rewrite !wseq_cons_1, <- !app_assoc. do 2 f_equal. }
      destruct (HR _ (le_n _)) as (f' & Hf' & ->).
      rewrite stop_loop by done. cbn [res_bind]. unfold arr.
      rewrite page_loop_cells. reflexivity.
    - assert (fails (wseq ws) [] [] e) as Hf.
      { eapply fails_cons; [apply Hstart; lia|]. apply fails_head. apply Hobjs. }
      specialize (Hf 0 [] []). rewrite app_nil_r in Hf. by rewrite Hf.
  Qed.

  Lemma kinds_counted_exact cs : counts_exactly (kinds_counted cs) (map kind_of cs).
  Proof. apply cdict_counts. apply (counter_fold kind_of cs [] []). apply cdict_nil. Qed.
End reader.

(** ** the bytes of dates and times *)
Lemma le1_value v : 0 <= v < 256 → le_bytes 1 v = [v].
Proof. intros Hv. cbn [le_bytes]. by rewrite Z.mod_small. Qed.

Lemma time_fields us : 0 <= us < us_per_day →
  0 <= getHour us < 24 ∧ 0 <= getMinute us < 60 ∧ 0 <= getSecond us < 60 ∧
  0 <= getMicrosecond us < 1000000 ∧ getMicrosecond us = us mod 1000000 ∧
  ((getHour us * 60 + getMinute us) * 60 + getSecond us) * 1000000 + getMicrosecond us = us.
Proof.
  unfold us_per_day. intros Hus. unfold getHour, getMinute, getSecond, getMicrosecond, inHours, inMinutes, inSeconds.
  rewrite !Z.quot_div_nonneg by lia.
  assert (0 <= us / 3600000000 < 24).
  { split; [apply Z.div_pos; lia|apply Z.div_lt_upper_bound; lia]. }
  rewrite Z.rem_small by lia.
  pose proof (Z.div_mod us 1000000). pose proof (Z.mod_pos_bound us 1000000).
  pose proof (Z.div_mod us 60000000). pose proof (Z.mod_pos_bound us 60000000).
  pose proof (Z.div_mod us 3600000000). pose proof (Z.mod_pos_bound us 3600000000).
  lia.
Qed.

(** the three bytes of the microseconds, big endian *)
Definition us_bytes (u : Z) : list Z := [u / 256 / 256 mod 256; u / 256 mod 256; u mod 256].

Lemma us_bytes_value u : 0 <= u < 1000000 → le_value (rev (us_bytes u)) = u.
Proof.
  intros Hu. cbn. pose proof (Z.div_mod u 256). pose proof (Z.div_mod (u / 256) 256).
  assert (u / 256 / 256 mod 256 = u / 256 / 256) as ->; [|lia].
  apply Z.mod_small. rewrite Z.div_div by lia. split; [apply Z.div_pos; lia|apply Z.div_lt_upper_bound; lia].
Qed.

Lemma time_bytes_eq us : 0 <= us < us_per_day →
  time_bytes us = [getHour us; getMinute us; getSecond us] ++ us_bytes (us mod 1000000).
Proof.
  intros Hus. pose proof (time_fields us Hus) as (H1 & H2 & H3 & H4 & H5 & H6).
  unfold time_bytes. rewrite !le1_value by lia. rewrite H5. reflexivity.
Qed.

Lemma date_bytes_eq d : python_date d →
  writePickleDateBody d = [yy d / 256; yy d mod 256; mm d; dd d].
Proof.
  intros [Hy [Hm Hd]]. unfold writePickleDateBody.
  assert (month_days (yy d) (mm d) <= 31) by (unfold month_days; repeat case_match; lia).
  rewrite !le1_value by lia. cbn. rewrite (Z.mod_small (yy d / 256)); [done|].
  split; [apply Z.div_pos; lia|apply Z.div_lt_upper_bound; lia].
Qed.

Lemma newPY_Date_ok d : python_date d → newPY_Date (yy d) (mm d) (dd d) = Ok d.
Proof.
  intros [Hy [Hm Hd]]. unfold newPY_Date. rewrite isLeapYear_gleap.
  assert (List.nth (Z.to_nat (mm d - 1)) (DAYS_PER_MONTH (gleap (yy d))) 0 = month_days (yy d) (mm d)) as ->.
  { destruct d as [y m dy]; simpl in *.
    assert (m = 1 ∨ m = 2 ∨ m = 3 ∨ m = 4 ∨ m = 5 ∨ m = 6 ∨ m = 7 ∨ m = 8 ∨ m = 9 ∨ m = 10 ∨ m = 11 ∨ m = 12)
      as Hc by lia.
    unfold month_days, DAYS_PER_MONTH.
    repeat (destruct Hc as [-> | Hc]; [by destruct (gleap y)|]). subst m. by destruct (gleap y). }
  rewrite !(proj2 (Z.leb_le _ _)) by lia. by destruct d.
Qed.

Lemma swapped16_date d rest : python_date d →
  swapped16 (writePickleDateBody d ++ rest) = yy d.
Proof.
  intros Hd. rewrite date_bytes_eq by done. destruct Hd as [Hy _].
  unfold swapped16, at_. cbn. pose proof (Z.div_mod (yy d) 256). lia.
Qed.

Section nim.
  Context (checks : bool) (scalar : list Z → list Z → res cell).

  Lemma nim_date_ok d : python_date d → nim_date (writePickleDateBody d) = Ok (CDate d).
  Proof.
    intros Hd. unfold nim_date. rewrite date_length. cbn [Nat.ltb Nat.leb].
    rewrite <- (app_nil_r (writePickleDateBody d)), swapped16_date, date_bytes_eq by done.
    unfold at_. cbn [app List.nth]. by rewrite newPY_Date_ok.
  Qed.

  Lemma nim_time_ok us : 0 <= us < us_per_day →
    nim_time (time_bytes us) = Ok (stretched (CTime us)).
  Proof.
    intros Hus. unfold nim_time. rewrite time_length. cbn [Nat.ltb Nat.leb].
    rewrite time_bytes_eq by done. pose proof (time_fields us Hus) as (H1 & H2 & H3 & H4 & H5 & H6).
    unfold at_, read_microsecond, newPY_Time, at_. cbn [app List.nth us_bytes].
    pose proof (us_bytes_value (us mod 1000000)) as Hu. rewrite <- H5 in *.
    specialize (Hu H4). unfold us_bytes in Hu. cbn [rev app List.nth Nat.add] in *.
    cbn [le_value] in *. simpl stretched. rewrite <- H5. do 2 f_equal. lia.
  Qed.

  Lemma nim_datetime_ok d us : python_date d → 0 <= us < us_per_day →
    nim_datetime checks (writePickleDateBody d ++ time_bytes us)
    = if negb checks || (us mod 1000000 <=? 3906) then Ok (stretched (CDateTime d us)) else Err OtherError.
  Proof.
    intros Hd Hus. unfold nim_datetime. rewrite app_length, date_length, time_length.
    cbn [Nat.ltb Nat.leb Nat.add].
    rewrite swapped16_date by done. rewrite time_bytes_eq, date_bytes_eq by done.
    pose proof (time_fields us Hus) as (H1 & H2 & H3 & H4 & H5 & H6).
    unfold newPY_DateTime, at_, read_microsecond, newPY_Time, at_. cbn [app List.nth us_bytes Nat.add].
    rewrite newPY_Date_ok by done. cbn [res_bind].
    rewrite !(proj2 (Z.ltb_lt _ _)) by lia. cbn [andb].
    pose proof (us_bytes_value (us mod 1000000)) as Hu. rewrite <- H5 in *.
    specialize (Hu H4). unfold us_bytes in Hu. cbn [rev app List.nth Nat.add le_value] in *.
    simpl stretched. rewrite <- H5.
    destruct checks; cbn [negb orb]; [|do 2 f_equal; lia].
    destruct (Z.leb_spec (getMicrosecond us) 3906) as [Hl|Hl].
    - rewrite (proj2 (Z.leb_le _ _)) by lia. do 2 f_equal. lia.
    - by rewrite (proj2 (Z.leb_gt _ _)) by lia.
  Qed.

  Lemma nim_decoded c : cell_ok c →
    decoded (nim_decoders checks scalar) c
    = if decide (checks = true ∧ is_datetime c ∧ 3906 < fraction c) then Err OtherError else Ok (stretched c).
  Proof.
    intros Hc. destruct c as [|b|z|bits|t|d|us|d us]; simpl in Hc;
      cbn [decoded d_date d_time d_datetime nim_decoders];
      try (rewrite decide_False by (by intros (_ & ? & ?))); try done.
    - by apply nim_date_ok.
    - by apply nim_time_ok.
    - destruct Hc as [Hd Hus]. rewrite nim_datetime_ok by done. simpl fraction.
      destruct (Z.leb_spec (us mod 1000000) 3906).
      + rewrite orb_true_r. by rewrite decide_False by lia.
      + rewrite orb_false_r. destruct checks; cbn [negb].
        * by rewrite decide_True by done.
        * by rewrite decide_False by naive_solver.
  Qed.

  Lemma nim_decode_all cs : Forall cell_ok cs →
    decode_all (nim_decoders checks scalar) cs
    = if decide (Exists (λ c, checks = true ∧ is_datetime c ∧ 3906 < fraction c) cs) then Err OtherError
      else Ok (map stretched cs).
  Proof.
    induction cs as [|c cs IH]; intros Hcs.
    { case_decide as H; [by apply Exists_nil in H|done]. }
    apply list.Forall_cons in Hcs as [Hc Hcs]. cbn [decode_all map].
    rewrite nim_decoded, IH by done.
    destruct (decide (checks = true ∧ is_datetime c ∧ 3906 < fraction c)) as [H1|H1]; cbn [res_bind].
    - rewrite decide_True by (by left). done.
    - destruct (decide (Exists _ cs)) as [H2|H2]; cbn [res_map].
      + rewrite decide_True by (by right). done.
      + rewrite decide_False by (intros H; apply Exists_cons in H as [?|?]; done). done.
  Qed.

  Lemma cpython_time_ok us : 0 <= us < us_per_day → cpython_time (time_bytes us) = Ok (CTime us).
  Proof.
    intros Hus. unfold cpython_time. rewrite time_length. cbn [Nat.eqb].
    rewrite time_bytes_eq by done. pose proof (time_fields us Hus) as (H1 & H2 & H3 & H4 & H5 & H6).
    unfold at_, newPY_Time. cbn [app List.nth].
    change (drop 3 (getHour us :: getMinute us :: getSecond us :: us_bytes (us mod 1000000)))
      with (us_bytes (us mod 1000000)).
    rewrite us_bytes_value by lia. rewrite <- H5. do 2 f_equal. lia.
  Qed.

  Lemma cpython_datetime_ok d us : python_date d → 0 <= us < us_per_day →
    cpython_datetime (writePickleDateBody d ++ time_bytes us) = Ok (CDateTime d us).
  Proof.
    intros Hd Hus. unfold cpython_datetime. rewrite app_length, date_length, time_length.
    cbn [Nat.eqb Nat.add].
    rewrite swapped16_date by done. rewrite time_bytes_eq, date_bytes_eq by done.
    pose proof (time_fields us Hus) as (H1 & H2 & H3 & H4 & H5 & H6).
    unfold newPY_DateTime, at_, newPY_Time. cbn [app List.nth].
    match goal with
    | |- context [drop 7 ?l] => change (drop 7 l) with (us_bytes (us mod 1000000))
    end.
    rewrite newPY_Date_ok by done. cbn [res_bind].
    rewrite us_bytes_value by lia.
    rewrite !(proj2 (Z.ltb_lt _ _)) by lia. cbn [andb].
    rewrite (proj2 (Z.leb_le _ _)) by lia. rewrite <- H5. do 2 f_equal. lia.
  Qed.

  Lemma cpython_decode_all cs : Forall cell_ok cs →
    decode_all (cpython_decoders scalar) cs = Ok cs.
  Proof.
    induction cs as [|c cs IH]; intros Hcs; [done|].
    apply list.Forall_cons in Hcs as [Hc Hcs]. cbn [decode_all].
    assert (decoded (cpython_decoders scalar) c = Ok c) as ->; [|cbn; by rewrite IH].
    destruct c as [|b|z|bits|t|d|us|d us]; simpl in Hc;
      cbn [decoded d_date d_time d_datetime cpython_decoders]; try done.
    - by apply nim_date_ok.
    - by apply cpython_time_ok.
    - destruct Hc. by apply cpython_datetime_ok.
  Qed.

  Lemma page_of_counted cs : page_of cs ([zlen cs], cs, kinds_counted cs).
  Proof. split; [done|]. split; [done|]. apply kinds_counted_exact. Qed.

  Lemma whole_stretched c : whole_seconds c → stretched c = c.
  Proof. destruct c; simpl; intros H; rewrite ?H; f_equal; lia. Qed.

  Lemma nim_roundtrip cs : Forall cell_ok cs → Forall whole_seconds cs → zlen cs < 2 ^ 31 →
    ∃ p, readPickledPage (nim_decoders checks scalar) (write_objects cs) = Ok p ∧ page_of cs p.
  Proof.
    intros Hcs Hw Hn. eexists. split; [|apply page_of_counted].
    rewrite read_written by done. rewrite nim_decode_all by done.
    rewrite decide_False.
    - cbn [res_map]. replace (map stretched cs) with cs; [done|].
      induction cs as [|c cs IH]; [done|]. apply list.Forall_cons in Hcs as [Hc Hcs].
      apply list.Forall_cons in Hw as [Hw Hws]. simpl. rewrite whole_stretched by done. f_equal.
      apply IH; try done. simpl in Hn. lia.
    - intros H. apply list.Exists_exists in H as (c & Hc & _ & _ & Hf).
      pose proof (proj1 (list.Forall_forall _ _) Hw c Hc) as H. destruct c; simpl in *; lia.
  Qed.

  Lemma nim_fractions cs : Forall cell_ok cs → zlen cs < 2 ^ 31 →
    (Forall (λ c, checks = true → is_datetime c → fraction c <= 3906) cs →
     ∃ p, readPickledPage (nim_decoders checks scalar) (write_objects cs) = Ok p ∧ page_of (map stretched cs) p)
    ∧ (¬ Forall (λ c, checks = true → is_datetime c → fraction c <= 3906) cs →
       readPickledPage (nim_decoders checks scalar) (write_objects cs) = Err OtherError).
  Proof.
    intros Hcs Hn. rewrite read_written, nim_decode_all by done. split; intros H.
    - rewrite decide_False.
      + eexists. split; [done|]. cbn [res_map].
        replace (zlen cs) with (zlen (map stretched cs)) by (by rewrite map_length).
        apply page_of_counted.
      + intros He. apply list.Exists_exists in He as (c & Hc & Hk & Hd & Hf).
        pose proof (proj1 (list.Forall_forall _ _) H c Hc Hk Hd). simpl in *. lia.
    - rewrite decide_True; [done|].
      apply not_Forall_Exists in H; [|intros c; unfold is_datetime; apply _].
      eapply list.Exists_impl; [exact H|]. intros c Hc. simpl in Hc.
      destruct (decide (checks = true)) as [Hk|Hk]; [|by destruct Hc]. split; [done|].
      destruct (decide (is_datetime c)) as [Hd|Hd]; [|by destruct Hc]. split; [done|].
      destruct (Z.le_gt_cases (fraction c) 3906); [by destruct Hc|lia].
  Qed.

  Lemma cpython_roundtrip cs : Forall cell_ok cs → zlen cs < 2 ^ 31 →
    ∃ p, readPickledPage (cpython_decoders scalar) (write_objects cs) = Ok p ∧ page_of cs p.
  Proof.
    intros Hcs Hn. eexists. split; [|apply page_of_counted].
    by rewrite read_written, cpython_decode_all.
  Qed.
End nim.
