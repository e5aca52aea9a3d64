(** The reader of nimlite on pages of objects written by Python. *)
From Coq Require Import Ascii String.
From Verif.Spec Require Import PythonPage.
From Verif.Model Require Import PicklePage.
From Verif.Proof Require Import DictLemmas PicklePageProofs PickleFormatProofs.
Local Open Scope Z_scope.

Lemma little_read k v b : little k v b → ∀ bs, read_n k (b ++ bs) = Ok (b, bs) ∧ le_value b = v.
Proof. intros (H1 & _ & H3) bs. rewrite le_value_foldr. split; [|done]. by apply read_n_app. Qed.

Lemma little_bytes k : ∀ v b, little k v b → b = le_bytes k v.
Proof.
  induction k as [|k IH]; intros v b (H1 & H2 & H3).
  - by destruct b.
  - destruct b as [|x b]; [done|]. apply list.Forall_cons in H2 as [Hx H2]. cbn [foldr] in H3. cbn [le_bytes].
    set (h := foldr (λ b higher, b + 256 * higher) 0 b) in *.
    assert (v mod 256 = x) as -> by (symmetry; apply (Z.mod_unique_pos _ _ h); lia).
    assert (v / 256 = h) as -> by (symmetry; apply (Z.div_unique_pos _ _ _ x); lia).
    f_equal. apply IH. split_and!; [by injection H1|done|done].
Qed.
Lemma big_bytes k v b : big k v b → b = rev (le_bytes k v).
Proof. intros H. apply little_bytes in H. by rewrite <- H, rev_involutive. Qed.

Lemma date_body_unique d b1 b2 : date_body d b1 → date_body d b2 → b1 = b2.
Proof. intros [y1 H1] [y2 H2]. apply big_bytes in H1 as ->. by apply big_bytes in H2 as ->. Qed.
Lemma time_body_unique us b1 b2 : time_body us b1 → time_body us b2 → b1 = b2.
Proof.
  intros [h1 mi1 s1 f1 x1 Hh1 Hm1 Hs1 Hf1 E1 B1] [h2 mi2 s2 f2 x2 Hh2 Hm2 Hs2 Hf2 E2 B2].
  assert (f1 = f2) as -> by lia. assert (s1 = s2) as -> by lia. assert (mi1 = mi2) as -> by lia. assert (h1 = h2) as -> by lia.
  apply big_bytes in B1 as ->. by apply big_bytes in B2 as ->.
Qed.

Section reader.
  (** [st c] is what the decoders make of [c] *)
  Context (dec : decoders) (st : cell → cell).
  Notation reach := (reach dec).

  Definition kept (mem : list entry) (d : list (Z * obj)) : Prop :=
    ∀ i e, mem !! i = Some e →
      match e with
      | Callable m n => dget d (Z.of_nat i) = Some (OGlobal (bytes_of m) (bytes_of n))
      | Item c => decoded dec c = Ok (st c) ∧ dget d (Z.of_nat i) = Some (OCell (st c))
      | Something => True
      end.
  Definition entry_of (e : entry) (o : obj) : Prop :=
    match e with
    | Callable m n => o = OGlobal (bytes_of m) (bytes_of n)
    | Item c => decoded dec c = Ok (st c) ∧ o = OCell (st c)
    | Something => True
    end.
  Lemma kept_put mem d e o : kept mem d → entry_of e o → kept (mem ++ [e]) (dset d (zlen mem) o).
  Proof.
    intros K E i e' H. apply lookup_app_Some in H as [H|[Hi H]].
    - pose proof (lookup_lt_Some _ _ _ H) as L. specialize (K i e' H).
      destruct e'; try done; rewrite dget_dset, decide_False by lia; done.
    - destruct (i - List.length mem)%nat as [|j] eqn:Ej; [|by destruct j]. injection H as <-.
      assert (i = List.length mem) as -> by lia.
      destruct e; cbn in E; try done; [|destruct E as [E1 E]; split; [done|]]; subst o; rewrite dget_dset, decide_True by done; done.
  Qed.

  Lemma reach_put i p o s m mem rest : put_as i p →
    reach (p ++ rest) (Vm (o :: s) m mem) rest (Vm (o :: s) m (dset mem i o)).
  Proof.
    intros [bs H|bs H Hi].
    - apply reach_step; [|cbn; rewrite app_length; lia].
      destruct (little_read _ _ _ H rest) as [R V].
      change (res_bind (read_n 1 (bs ++ rest)) (λ '(i, bs), put (le_value i) bs (Vm (o :: s) m mem))
              = Ok (Running rest (Vm (o :: s) m (dset mem i o)))).
      rewrite R. cbn [res_bind]. by rewrite V.
    - apply reach_step; [|cbn; rewrite app_length; lia].
      destruct (little_read _ _ _ H rest) as [R V].
      change (res_bind (read_n 4 (bs ++ rest)) (λ '(i, bs), put (as_int32 (le_value i)) bs (Vm (o :: s) m mem))
              = Ok (Running rest (Vm (o :: s) m (dset mem i o)))).
      rewrite R. cbn [res_bind]. rewrite V. unfold as_int32. by rewrite (proj2 (Z.ltb_lt _ _)).
  Qed.

  Lemma reach_get i g o s m mem rest : got_as i g → dget mem i = Some o →
    reach (g ++ rest) (Vm s m mem) rest (Vm (o :: s) m mem).
  Proof.
    intros [bs H|bs H Hi] Hg; (apply reach_step; [|cbn; rewrite app_length; lia]).
    - exact (step_binget dec i bs rest o (Vm s m mem) H Hg).
    - exact (step_long_binget dec i bs rest o (Vm s m mem) H Hi Hg).
  Qed.

  Lemma reach_global a b s m mem rest : PKL_STRING_TERM ∉ bytes_of a → PKL_STRING_TERM ∉ bytes_of b →
    reach (global a b ++ rest) (Vm s m mem) rest (Vm (OGlobal (bytes_of a) (bytes_of b) :: s) m mem).
  Proof.
    intros Ha Hb. apply reach_step.
    - rewrite <- global_ok. unfold writePickleGlobal.
      rewrite <- app_comm_cons, <- app_assoc, <- app_comm_cons, <- app_assoc. unfold unpickle.
      cbn -[readLine app]. rewrite readLine_app by done. cbn -[readLine app].
      change ([PKL_STRING_TERM] ++ rest) with (PKL_STRING_TERM :: rest).
      by rewrite readLine_app.
    - unfold global. cbn. rewrite !app_length. lia.
  Qed.

  Lemma reach_class mem module name f mem1 : class_of mem module name f mem1 →
    PKL_STRING_TERM ∉ bytes_of module → PKL_STRING_TERM ∉ bytes_of name →
    ∀ s m d rest, kept mem d → ∃ d1, kept mem1 d1 ∧
      reach (f ++ rest) (Vm s m d) rest (Vm (OGlobal (bytes_of module) (bytes_of name) :: s) m d1).
  Proof.
    intros [p Hp|i g Hi Hg] Hm Hn s m d rest K.
    - eexists. split; [by apply kept_put|]. rewrite <- app_assoc.
      eapply reach_trans; [by apply reach_global|]. by apply reach_put.
    - exists d. split; [done|]. eapply reach_get; [done|]. exact (K _ _ Hi).
  Qed.

  Lemma reach_bytes b s m mem rest : zlen b < 256 →
    reach ([op "C"; zlen b] ++ b ++ rest) (Vm s m mem) rest (Vm (OBytes b :: s) m mem).
  Proof.
    intros Hb. apply reach_step; [|cbn; rewrite app_length; lia].
    change (res_bind (read_n (Z.to_nat (zlen b + 256 * 0)) (b ++ rest)) (λ '(v, bs), push (OBytes v) bs (Vm s m mem))
            = Ok (Running rest (Vm (OBytes b :: s) m mem))).
    rewrite read_n_app by lia. done.
  Qed.

  Lemma reach_made mem c module name body bs mem' : py_made mem c module name body bs mem' →
    PKL_STRING_TERM ∉ bytes_of module → PKL_STRING_TERM ∉ bytes_of name → zlen body < 256 → decoded dec c = Ok (st c) →
    newReducePickle dec (OGlobal (bytes_of module) (bytes_of name)) (OTuple [OBytes body]) = Ok (OCell (st c)) →
    ∀ s m d rest, kept mem d → ∃ d', kept mem' d' ∧ reach (bs ++ rest) (Vm s m d) rest (Vm (OCell (st c) :: s) m d').
  Proof.
    intros [f mem1 p1 p2 p3 Hf H1 H2 H3] Hm Hn Hb Hd Hr s m d rest K.
    rewrite <- !app_assoc.
    destruct (reach_class _ _ _ _ _ Hf Hm Hn s m d ([op "C"; zlen body] ++ body ++ p1 ++ [133] ++ p2 ++ [op "R"] ++ p3 ++ rest) K)
      as (d1 & K1 & R1).
    eexists. split.
    - change (mem1 ++ [Something; Something; Item c]) with (mem1 ++ [Something] ++ [Something] ++ [Item c]).
      rewrite !app_assoc. apply kept_put; [|by split]. apply kept_put; [|exact I]. apply kept_put; [|exact I]. exact K1.
    - eapply reach_trans; [exact R1|]. eapply reach_trans; [by apply reach_bytes|].
      eapply reach_trans; [by apply reach_put|].
      eapply reach_trans; [apply reach_step; [reflexivity|cbn; lia]|].
      rewrite !app_length. cbn [List.length].
      replace (zlen mem1 + 1) with (Z.of_nat (List.length mem1 + 1)) in H2 by lia.
      replace (zlen mem1 + 2) with (Z.of_nat (List.length mem1 + 1 + 1)) in H3 by lia.
      eapply reach_trans; [by apply reach_put|].
      eapply reach_trans; [|by apply reach_put].
      apply reach_step; [|cbn; lia].
      change ([op "R"] ++ p3 ++ rest) with (PKL_REDUCE :: (p3 ++ rest)). unfold unpickle. cbn -[newReducePickle]. by rewrite Hr.
  Qed.

  Lemma step_plain c bs s m mem rest : pickled c bs → unkept c →
    reach (bs ++ rest) (Vm s m mem) rest (Vm (OCell c :: s) m mem).
  Proof.
    intros H U. destruct H as [| | |z bs H|z bs H|z u bs H Hz Hu|bits bs H|t bs H|d body bs _ _|us body bs _ _|d us b1 b2 bs _ _ _]; try done;
      try (apply reach_step; [reflexivity|cbn; lia]); (apply reach_step; [|cbn; rewrite app_length; lia]).
    - destruct (little_read _ _ _ H rest) as [R V].
      change (res_bind (read_n 1 (bs ++ rest)) (λ '(v, bs), push (OCell (CInt (le_value v))) bs (Vm s m mem))
              = Ok (Running rest (Vm (OCell (CInt z) :: s) m mem))).
      rewrite R. cbn [res_bind]. by rewrite V.
    - destruct (little_read _ _ _ H rest) as [R V].
      change (res_bind (read_n 2 (bs ++ rest)) (λ '(v, bs), push (OCell (CInt (le_value v))) bs (Vm s m mem))
              = Ok (Running rest (Vm (OCell (CInt z) :: s) m mem))).
      rewrite R. cbn [res_bind]. by rewrite V.
    - destruct (little_read _ _ _ H rest) as [R V].
      change (res_bind (read_n 4 (bs ++ rest)) (λ '(v, bs), push (OCell (CInt (as_int32 (le_value v)))) bs (Vm s m mem))
              = Ok (Running rest (Vm (OCell (CInt z) :: s) m mem))).
      rewrite R. cbn [res_bind]. rewrite V.
      assert (0 <= u) as U0.
      { destruct H as (_ & P & <-). clear -P. induction P as [|x l Hx _ IH]; cbn [foldr]; lia. }
      assert (as_int32 u = z) as ->; [|done]. unfold as_int32. destruct (Z.ltb_spec u (2 ^ 31)); lia.
    - destruct (little_read _ _ _ H []) as [_ V].
      change (res_bind (read_n 8 (bs ++ rest)) (λ '(v, bs), push (OCell (CFloat (le_value (rev v)))) bs (Vm s m mem))
              = Ok (Running rest (Vm (OCell (CFloat bits) :: s) m mem))).
      rewrite read_n_app by (destruct H as [H _]; by rewrite rev_length in H). cbn [res_bind]. by rewrite V.
  Qed.

  Definition fine (c : cell) : Prop := cell_ok c ∧ decoded dec c = Ok (st c).

  Lemma reach_item mem c bs mem' : py_item mem c bs mem' → fine c →
    ∀ s m d rest, kept mem d → ∃ d', kept mem' d' ∧ reach (bs ++ rest) (Vm s m d) rest (Vm (OCell (st c) :: s) m d').
  Proof.
    intros H [Hok Hd] s m d rest K.
    assert (PKL_STRING_TERM ∉ bytes_of "datetime") by (vm_compute; set_solver).
    assert (PKL_STRING_TERM ∉ bytes_of "date") by (vm_compute; set_solver).
    assert (PKL_STRING_TERM ∉ bytes_of "time") by (vm_compute; set_solver).
    destruct H as [c bs H U|t sz p H Hp|dt body bs mem' H M|us body bs mem' H M|dt us body body' bs mem' H H' M|c i g Hi Hg].
    - exists d. split; [done|]. assert (st c = c) as -> by (destruct c; try done; cbn in Hd; congruence). by apply step_plain.
    - assert (st (CStr t) = CStr t) as E by (cbn in Hd; congruence).
      eexists. split; [apply kept_put; [exact K|by split]|]. eapply reach_trans; [|by apply reach_put].
      apply reach_step; [|cbn; rewrite !app_length; lia].
      cbn [app]. rewrite <- !app_assoc. destruct (little_read _ _ _ H (t ++ p ++ rest)) as [R V].
      change (res_bind (read_n 4 (sz ++ t ++ p ++ rest)) (λ '(sz, bs),
            res_bind (read_n (Z.to_nat (as_int32 (le_value sz))) bs) (λ '(v, bs),
              push (OCell (CStr v)) bs (Vm s m d))) = Ok (Running (p ++ rest) (Vm (OCell (st (CStr t)) :: s) m d))).
      rewrite E, R. cbn [res_bind]. rewrite V. cbn in Hok. unfold as_int32. rewrite (proj2 (Z.ltb_lt _ _)) by lia.
      rewrite Nat2Z.id, read_n_app by done. done.
    - cbn in Hok. change (d_date dec (writePickleDateBody dt) = Ok (st (CDate dt))) in Hd. rewrite (date_body_unique _ _ _ H (date_body_ok dt Hok)) in M.
      eapply reach_made; [exact M|done|done|cbn; lia|exact Hd| |done].
      transitivity (res_map OCell (d_date dec (writePickleDateBody dt))); [reflexivity|]. by rewrite Hd.
    - cbn in Hok. change (d_time dec (time_bytes us) = Ok (st (CTime us))) in Hd. rewrite (time_body_unique _ _ _ H (time_body_ok us Hok)) in M.
      eapply reach_made; [exact M|done|done|cbn; lia|exact Hd| |done].
      transitivity (res_map OCell (d_time dec (time_bytes us))); [reflexivity|]. by rewrite Hd.
    - cbn in Hok. change (d_datetime dec (writePickleDateBody dt ++ time_bytes us) = Ok (st (CDateTime dt us))) in Hd. destruct Hok as [Hok Hok'].
      rewrite (date_body_unique _ _ _ H (date_body_ok dt Hok)), (time_body_unique _ _ _ H' (time_body_ok us Hok')) in M.
      eapply reach_made; [exact M|done|done|cbn; lia|exact Hd| |done].
      transitivity (res_map OCell (d_datetime dec (writePickleDateBody dt ++ time_bytes us))); [reflexivity|]. by rewrite Hd.
    - exists d. split; [done|]. eapply reach_get; [done|]. exact (proj2 (K _ _ Hi)).
  Qed.

  Lemma reach_items mem cs bs mem' : py_items mem cs bs mem' → Forall fine cs →
    ∀ s m d rest, kept mem d →
    ∃ d', kept mem' d' ∧ reach (bs ++ rest) (Vm s m d) rest (Vm (rev (map (OCell ∘ st) cs) ++ s) m d').
  Proof.
    induction 1 as [mem|mem c b mem1 cs bs mem2 H _ IH]; intros F s m d rest K.
    - exists d. split; [done|]. apply reach_refl.
    - apply list.Forall_cons in F as [F1 F2]. rewrite <- app_assoc.
      destruct (reach_item _ _ _ _ H F1 s m d (bs ++ rest) K) as (d1 & K1 & R1).
      destruct (IH F2 (OCell (st c) :: s) m d1 rest K1) as (d2 & K2 & R2).
      exists d2. split; [done|]. cbn [map rev]. rewrite <- app_assoc. by eapply reach_trans.
  Qed.

  Lemma reach_batches mem cs bs mem' : py_batches mem cs bs mem' → Forall fine cs →
    ∀ l s m d rest, kept mem d →
    ∃ d', kept mem' d' ∧ reach (bs ++ rest) (Vm (OList l :: s) m d) rest (Vm (OList (l ++ map (OCell ∘ st) cs) :: s) m d').
  Proof.
    induction 1 as [mem|mem c b mem1 cs bs mem2 H _ IH|mem cs1 b mem1 cs bs mem2 H _ IH]; intros F l s m d rest K.
    - exists d. split; [done|]. rewrite app_nil_r. apply reach_refl.
    - apply list.Forall_cons in F as [F1 F2]. rewrite <- !app_assoc.
      destruct (reach_item _ _ _ _ H F1 (OList l :: s) m d ([op "a"] ++ bs ++ rest) K) as (d1 & K1 & R1).
      destruct (IH F2 (l ++ [OCell (st c)]) s m d1 rest K1) as (d2 & K2 & R2).
      exists d2. split; [done|]. eapply reach_trans; [exact R1|].
      eapply reach_trans; [apply reach_step; [apply step_append|cbn; lia]|].
      cbn [map]. rewrite <- app_assoc in R2. exact R2.
    - apply list.Forall_app in F as [F1 F2]. rewrite <- !app_assoc.
      destruct (reach_items _ _ _ _ H F1 [] ((OList l :: s) :: m) d ([op "e"] ++ bs ++ rest) K) as (d1 & K1 & R1).
      destruct (IH F2 (l ++ map (OCell ∘ st) cs1) s m d1 rest K1) as (d2 & K2 & R2).
      exists d2. split; [done|].
      eapply reach_trans; [apply reach_step; [reflexivity|cbn; lia]|].
      eapply reach_trans; [exact R1|]. rewrite map_app, (app_assoc l).
      eapply reach_trans; [|exact R2].
      apply reach_step; [|cbn; lia].
      rewrite app_nil_r.
      transitivity (Ok (Running (bs ++ rest) (Vm (OList (l ++ rev (rev (map (OCell ∘ st) cs1))) :: s) m d1)));
        [reflexivity|by rewrite rev_involutive].
  Qed.

  Ltac one := eapply reach_trans; [eapply reach_step; [lazy; reflexivity|cbn; lia]|].

  Lemma reach_start n nb rest : pickled (CInt n) nb →
    ∃ d, reach (array_start 0 nb ++ rest) (Vm [] [] []) rest
      (Vm (OList [] :: page_state n) [[OArray [] [] []]] d).
  Proof.
    intros Hn.
    assert (∃ d, ∀ tl, reach ([128; 3] ++ global "numpy.core.multiarray" "_reconstruct" ++ q 0 ++ global "numpy" "ndarray" ++ q 1 ++
      [op "K"; 0; 133] ++ q 2 ++ [op "C"; 1; op "b"] ++ q 3 ++ [135] ++ q 4 ++ [op "R"] ++ q 5 ++ [op "("; op "K"; 1] ++ tl)
      (Vm [] [] []) tl (Vm [OCell (CInt 1)] [[OArray [] [] []]] d)) as [d0 A].
    { eexists. intros tl. do 16 one. apply reach_refl. }
    eexists. unfold array_start. rewrite <- !app_assoc.
    eapply reach_trans; [apply A|].
    eapply reach_trans; [by apply step_plain|].
    do 28 one. apply reach_refl.
  Qed.

  Lemma read_python cs bs : python_page cs bs → Forall fine cs →
    readPickledPage dec bs = Ok ([zlen cs], map st cs, kinds_counted (map st cs)).
  Proof.
    intros [nb b mem p Hn Hb Hp] F. unfold readPickledPage.
    destruct (reach_start (zlen cs) nb (b ++ [op "t"] ++ p ++ [op "b"; op "."]) Hn) as [d R0].
    assert (kept (replicate 14 Something) d) as K.
    { intros i e H. apply lookup_replicate_1 in H as [-> _]. exact I. }
    destruct (reach_batches _ _ _ _ Hb F [] (page_state (zlen cs)) [[OArray [] [] []]] d ([op "t"] ++ p ++ [op "b"; op "."]) K)
      as (d1 & _ & R1).
    set (arr := OArray [zlen cs] (bytes_of "O8") (map (OCell ∘ st) cs)).
    assert (∃ d2, reach (array_start 0 nb ++ b ++ [op "t"] ++ p ++ [op "b"; op "."]) (Vm [] [] []) [op "."] (Vm [arr] [] d2)) as [d2 R].
    { eexists. eapply reach_trans; [exact R0|]. eapply reach_trans; [exact R1|].
      eapply reach_trans; [apply reach_step; [reflexivity|cbn; lia]|].
      eapply reach_trans; [by apply reach_put|].
      apply reach_step; [reflexivity|cbn; lia]. }
    destruct (R _ (le_n _)) as (f' & Hf' & ->).
    change [op "."] with [PKL_STOP] in *. rewrite stop_loop by done. cbn [res_bind]. unfold arr. rewrite <- (map_map st OCell). rewrite page_loop_cells. done.
  Qed.

  (** ** Elements that cannot be decoded *)
  Definition raises (bs : list Z) (v : vm) (e : exn) : Prop :=
    ∀ rest f, (List.length (bs ++ rest) ≤ f)%nat → unpickle_loop dec f (bs ++ rest) v = Err e.
  Lemma raises_app bs1 bs2 v e : raises bs1 v e → raises (bs1 ++ bs2) v e.
  Proof. intros H rest f. rewrite <- app_assoc. apply H. Qed.

  Lemma made_raises mem c module name body bs mem' e : py_made mem c module name body bs mem' →
    PKL_STRING_TERM ∉ bytes_of module → PKL_STRING_TERM ∉ bytes_of name → zlen body < 256 →
    newReducePickle dec (OGlobal (bytes_of module) (bytes_of name)) (OTuple [OBytes body]) = Err e →
    ∀ s m d, kept mem d → raises bs (Vm s m d) e.
  Proof.
    intros [f mem1 p1 p2 p3 Hf H1 H2 H3] Hm Hn Hb Hr s m d K rest.
    rewrite <- !app_assoc.
    destruct (reach_class _ _ _ _ _ Hf Hm Hn s m d ([op "C"; zlen body] ++ body ++ p1 ++ [133] ++ p2 ++ [op "R"] ++ p3 ++ rest) K)
      as (d1 & _ & R1).
    intros fu Hfu. destruct (R1 fu Hfu) as (f1 & Hf1 & ->).
    destruct (reach_bytes body (OGlobal (bytes_of module) (bytes_of name) :: s) m d1 (p1 ++ [133] ++ p2 ++ [op "R"] ++ p3 ++ rest) Hb f1 Hf1) as (f2 & Hf2 & ->).
    destruct (reach_put _ _ (OBytes body) (OGlobal (bytes_of module) (bytes_of name) :: s) m d1 ([133] ++ p2 ++ [op "R"] ++ p3 ++ rest) H1 f2 Hf2) as (f3 & Hf3 & ->).
    destruct f3 as [|f3]; [cbn in Hf3; lia|].
    change (unpickle_loop dec f3 (p2 ++ [op "R"] ++ p3 ++ rest)
      (Vm (OTuple [OBytes body] :: OGlobal (bytes_of module) (bytes_of name) :: s) m (dset d1 (zlen mem1) (OBytes body))) = Err e).
    assert (List.length (p2 ++ [op "R"] ++ p3 ++ rest) ≤ f3)%nat as Hf4 by (cbn in Hf3 |- *; lia).
    destruct (reach_put _ _ (OTuple [OBytes body]) (OGlobal (bytes_of module) (bytes_of name) :: s) m (dset d1 (zlen mem1) (OBytes body))
      ([op "R"] ++ p3 ++ rest) H2 f3 Hf4) as (f5 & Hf5 & ->).
    destruct f5 as [|f5]; [cbn in Hf5; lia|].
    change ([op "R"] ++ p3 ++ rest) with (PKL_REDUCE :: (p3 ++ rest)). cbn [unpickle_loop]. unfold unpickle. cbn -[newReducePickle]. by rewrite Hr.
  Qed.

  Lemma item_raises mem c bs mem' e : py_item mem c bs mem' → cell_ok c → decoded dec c = Err e →
    ∀ s m d, kept mem d → raises bs (Vm s m d) e.
  Proof.
    intros H Hok Hd s m d K.
    assert (PKL_STRING_TERM ∉ bytes_of "datetime") by (vm_compute; set_solver).
    assert (PKL_STRING_TERM ∉ bytes_of "date") by (vm_compute; set_solver).
    assert (PKL_STRING_TERM ∉ bytes_of "time") by (vm_compute; set_solver).
    destruct H as [c bs H U|t sz p H Hp|dt body bs mem' H M|us body bs mem' H M|dt us body body' bs mem' H H' M|c i g Hi Hg].
    - by destruct c.
    - done.
    - cbn in Hok. change (d_date dec (writePickleDateBody dt) = Err e) in Hd. rewrite (date_body_unique _ _ _ H (date_body_ok dt Hok)) in M.
      eapply made_raises; [exact M|done|done|cbn; lia| |done].
      transitivity (res_map OCell (d_date dec (writePickleDateBody dt))); [reflexivity|]. by rewrite Hd.
    - cbn in Hok. change (d_time dec (time_bytes us) = Err e) in Hd. rewrite (time_body_unique _ _ _ H (time_body_ok us Hok)) in M.
      eapply made_raises; [exact M|done|done|cbn; lia| |done].
      transitivity (res_map OCell (d_time dec (time_bytes us))); [reflexivity|]. by rewrite Hd.
    - cbn in Hok. change (d_datetime dec (writePickleDateBody dt ++ time_bytes us) = Err e) in Hd. destruct Hok as [Hok Hok'].
      rewrite (date_body_unique _ _ _ H (date_body_ok dt Hok)), (time_body_unique _ _ _ H' (time_body_ok us Hok')) in M.
      eapply made_raises; [exact M|done|done|cbn; lia| |done].
      transitivity (res_map OCell (d_datetime dec (writePickleDateBody dt ++ time_bytes us))); [reflexivity|]. by rewrite Hd.
    - destruct (K _ _ Hi) as [E _]. congruence.
  Qed.

  Definition judged (e : exn) (c : cell) : Prop := cell_ok c ∧ (decoded dec c = Ok (st c) ∨ decoded dec c = Err e).
  Definition bad (e : exn) (c : cell) : Prop := decoded dec c = Err e.
  Lemma judged_cases e cs : Forall (judged e) cs → Forall fine cs ∨ Exists (bad e) cs.
  Proof.
    induction 1 as [|c cs [Hok [H|H]] _ IH]; [by left| |right; by left].
    destruct IH as [IH|IH]; [left; constructor; [by split|done]|right; by right].
  Qed.

  Lemma items_raise mem cs bs mem' e : py_items mem cs bs mem' → Forall (judged e) cs → Exists (bad e) cs →
    ∀ s m d, kept mem d → raises bs (Vm s m d) e.
  Proof.
    induction 1 as [mem|mem c b mem1 cs bs mem2 H _ IH]; intros F X s m d K; [by apply Exists_nil in X|].
    apply list.Forall_cons in F as [[Hok [Hd|Hd]] F].
    - apply Exists_cons in X as [X|X]; [unfold bad in X; congruence|].
      intros rest f. rewrite <- app_assoc. intros Hf.
      destruct (reach_item _ _ _ _ H (conj Hok Hd) s m d (bs ++ rest) K) as (d1 & K1 & R1).
      destruct (R1 f Hf) as (f' & Hf' & ->). by apply (IH F X (OCell (st c) :: s) m d1 K1).
    - apply raises_app. by eapply item_raises.
  Qed.

  Lemma batches_raise mem cs bs mem' e : py_batches mem cs bs mem' → Forall (judged e) cs → Exists (bad e) cs →
    ∀ l s m d, kept mem d → raises bs (Vm (OList l :: s) m d) e.
  Proof.
    induction 1 as [mem|mem c b mem1 cs bs mem2 H _ IH|mem cs1 b mem1 cs bs mem2 H _ IH]; intros F X l s m d K;
      [by apply Exists_nil in X| |].
    - apply list.Forall_cons in F as [[Hok [Hd|Hd]] F]; [|apply raises_app; by eapply item_raises].
      apply Exists_cons in X as [X|X]; [unfold bad in X; congruence|].
      intros rest f. rewrite <- !app_assoc. intros Hf.
      destruct (reach_item _ _ _ _ H (conj Hok Hd) (OList l :: s) m d ([op "a"] ++ bs ++ rest) K) as (d1 & K1 & R1).
      destruct (R1 f Hf) as (f1 & Hf1 & ->). destruct f1 as [|f1]; [cbn in Hf1; lia|].
      apply (IH F X (l ++ [OCell (st c)]) s m d1 K1). cbn in Hf1 |- *. lia.
    - apply list.Forall_app in F as [F1 F2].
      intros rest f. rewrite <- !app_assoc. intros Hf. destruct f as [|f]; [cbn in Hf; lia|].
      change (unpickle_loop dec f (b ++ [op "e"] ++ bs ++ rest) (Vm [] ((OList l :: s) :: m) d) = Err e).
      assert (List.length (b ++ [op "e"] ++ bs ++ rest) ≤ f)%nat as Hf0 by (cbn in Hf |- *; lia).
      destruct (judged_cases _ _ F1) as [F1'|X1].
      + apply Exists_app in X as [X|X].
        { apply (items_raise _ _ _ _ _ H F1 X [] ((OList l :: s) :: m) d K _ _ Hf0). }
        destruct (reach_items _ _ _ _ H F1' [] ((OList l :: s) :: m) d ([op "e"] ++ bs ++ rest) K) as (d1 & K1 & R1).
        destruct (R1 f Hf0) as (f1 & Hf1 & ->). destruct f1 as [|f1]; [cbn in Hf1; lia|].
        apply (IH F2 X (l ++ rev (rev (map (OCell ∘ st) cs1) ++ [])) s m d1 K1). cbn in Hf1 |- *. lia.
      + apply (items_raise _ _ _ _ _ H F1 X1 [] ((OList l :: s) :: m) d K _ _ Hf0).
  Qed.

  Lemma python_raises cs bs e : python_page cs bs → Forall (judged e) cs → Exists (bad e) cs → readPickledPage dec bs = Err e.
  Proof.
    intros [nb b mem p Hn Hb Hp] F X. unfold readPickledPage.
    destruct (reach_start (zlen cs) nb (b ++ [op "t"] ++ p ++ [op "b"; op "."]) Hn) as [d R0].
    assert (kept (replicate 14 Something) d) as K.
    { intros i e' H. apply lookup_replicate_1 in H as [-> _]. exact I. }
    destruct (R0 _ (le_n _)) as (f' & Hf' & ->).
    rewrite (batches_raise _ _ _ _ _ Hb F X [] (page_state (zlen cs)) [[OArray [] [] []]] d K _ _ Hf'). done.
  Qed.

  Lemma wide_opcode f bs v : unpickle_loop dec f (LONG1 :: bs) v = Err OtherError.
  Proof.
    destruct f as [|f]; [done|]. cbn [unpickle_loop]. rewrite unread_opcode; [done|].
    apply (bool_decide_unpack _). vm_compute. exact I.
  Qed.

  Lemma wide_raises cs bs : wide_page cs bs → Forall (judged OtherError) cs → readPickledPage dec bs = Err OtherError.
  Proof.
    intros H F. unfold readPickledPage.
    assert (∀ d, kept (replicate 14 Something) d) as K0.
    { intros d i e' Hi. apply lookup_replicate_1 in Hi as [-> _]. exact I. }
    destruct H as [n nb cs1 b mem cs2 b' mem' rest -> Hn Hb Hi|n nb b mem rest Hn Hb].
    - apply list.Forall_app in F as [F1 F2].
      destruct (reach_start n nb (b ++ [op "("] ++ b' ++ [LONG1] ++ rest) Hn) as [d R0].
      destruct (R0 _ (le_n _)) as (f0 & Hf0 & ->).
      destruct (judged_cases _ _ F1) as [F1'|X].
      + destruct (reach_batches _ _ _ _ Hb F1' [] (page_state n) [[OArray [] [] []]] d ([op "("] ++ b' ++ [LONG1] ++ rest) (K0 d))
          as (d1 & K1 & R1).
        destruct (R1 _ Hf0) as (f1 & Hf1 & ->). destruct f1 as [|f1]; [cbn in Hf1; lia|].
        set (l := OList ([] ++ map (OCell ∘ st) cs1) :: page_state n).
        change (res_bind (unpickle_loop dec f1 (b' ++ [LONG1] ++ rest) (Vm [] (l :: [[OArray [] [] []]]) d1)) (λ o,
          match o with
          | OArray shape _ elems => res_map (λ '(buf, dtypes), (shape, buf, dtypes)) (page_loop elems [] [])
          | _ => Err OtherError
          end) = Err OtherError).
        assert (List.length (b' ++ [LONG1] ++ rest) ≤ f1)%nat as Hf2 by (cbn in Hf1 |- *; lia).
        destruct (judged_cases _ _ F2) as [F2'|X].
        * destruct (reach_items _ _ _ _ Hi F2' [] (l :: [[OArray [] [] []]]) d1 ([LONG1] ++ rest) K1) as (d2 & _ & R2).
          destruct (R2 _ Hf2) as (f3 & _ & ->). change ([LONG1] ++ rest) with (LONG1 :: rest). by rewrite wide_opcode.
        * by rewrite (items_raise _ _ _ _ _ Hi F2 X [] (l :: [[OArray [] [] []]]) d1 K1 _ _ Hf2).
      + by rewrite (batches_raise _ _ _ _ _ Hb F1 X [] (page_state n) [[OArray [] [] []]] d (K0 d) _ _ Hf0).
    - destruct (reach_start n nb (b ++ [LONG1] ++ rest) Hn) as [d R0].
      destruct (R0 _ (le_n _)) as (f0 & Hf0 & ->).
      destruct (judged_cases _ _ F) as [F'|X].
      + destruct (reach_batches _ _ _ _ Hb F' [] (page_state n) [[OArray [] [] []]] d ([LONG1] ++ rest) (K0 d)) as (d1 & _ & R1).
        destruct (R1 _ Hf0) as (f1 & _ & ->). change ([LONG1] ++ rest) with (LONG1 :: rest). by rewrite wide_opcode.
      + by rewrite (batches_raise _ _ _ _ _ Hb F X [] (page_state n) [[OArray [] [] []]] d (K0 d) _ _ Hf0).
  Qed.

  Lemma numpy2_unread rest :
    readPickledPage dec (numpy2_start ++ rest) = Err OtherError.
  Proof.
    unfold readPickledPage.
    assert (∀ f, (List.length (numpy2_start ++ rest) ≤ f)%nat →
      unpickle_loop dec f (numpy2_start ++ rest) (Vm [] [] []) = Err OtherError) as H.
    { intros f Hf. unfold numpy2_start in *. rewrite <- !app_assoc in *.
      assert (∃ v, reach ([128; 3] ++ global "numpy._core.multiarray" "_reconstruct" ++ q 0 ++ global "numpy" "ndarray" ++ q 1 ++
        [op "K"; 0; 133] ++ q 2 ++ [op "C"; 1; op "b"] ++ q 3 ++ [135] ++ q 4 ++ [op "R"] ++ rest) (Vm [] [] []) ([op "R"] ++ rest) v ∧
        unpickle dec ([op "R"] ++ rest) v = Err OtherError) as (v & R & E).
      { eexists. split; [do 12 one; apply reach_refl|]. lazy. reflexivity. }
      destruct (R f Hf) as (f' & Hf' & ->). destruct f' as [|f']; [cbn in Hf'; lia|].
      cbn [unpickle_loop]. by rewrite E. }
    rewrite H by lia. done.
  Qed.
End reader.

Lemma python_nim_fractions checks scalar cs bs : python_page cs bs → Forall cell_ok cs →
  Forall (λ c, checks = true → is_datetime c → fraction c <= 3906) cs →
  ∃ p, readPickledPage (nim_decoders checks scalar) bs = Ok p ∧ page_of (map stretched cs) p.
Proof.
  intros H Hc Hw. eexists. split.
  - apply (read_python _ stretched cs); [done|].
    apply list.Forall_forall. intros c Hin.
    pose proof (proj1 (list.Forall_forall _ _) Hc c Hin) as Hok. pose proof (proj1 (list.Forall_forall _ _) Hw c Hin) as Hs. simpl in Hs.
    split; [done|]. rewrite nim_decoded, decide_False; [done|intros (H1 & H2 & H3); specialize (Hs H1 H2); lia|done].
  - rewrite <- (map_length stretched cs). apply page_of_counted.
Qed.

Lemma python_nim_raises scalar cs bs : python_page cs bs → Forall cell_ok cs →
  ¬ Forall (λ c, is_datetime c → fraction c <= 3906) cs →
  readPickledPage (nim_decoders true scalar) bs = Err OtherError.
Proof.
  intros H Hc Hw. apply (python_raises _ stretched cs); [done| |].
  - eapply list.Forall_impl; [exact Hc|]. intros c Hok. split; [done|]. rewrite nim_decoded by done. case_decide; [by right|by left].
  - apply not_Forall_Exists in Hw; [|intros c; unfold is_datetime; apply _].
    apply list.Exists_exists in Hw as (c & Hin & Hb). apply list.Exists_exists. exists c. split; [done|].
    pose proof (proj1 (list.Forall_forall _ _) Hc c Hin) as Hok. unfold bad. rewrite nim_decoded, decide_True; [done| |done].
    simpl in Hb. split; [done|].
    destruct (decide (is_datetime c)) as [Hd|Hd]; [|by destruct Hb]. split; [done|].
    destruct (Z.le_gt_cases (fraction c) 3906); [by destruct Hb|lia].
Qed.

Lemma python_wide checks scalar cs bs : wide_page cs bs → Forall cell_ok cs →
  readPickledPage (nim_decoders checks scalar) bs = Err OtherError.
Proof.
  intros H Hc. apply (wide_raises _ stretched cs); [done|].
  eapply list.Forall_impl; [exact Hc|]. intros c Hok. split; [done|]. rewrite nim_decoded by done. case_decide; [by right|by left].
Qed.

Lemma python_nim checks scalar cs bs : python_page cs bs → Forall cell_ok cs → Forall whole_seconds cs →
  ∃ p, readPickledPage (nim_decoders checks scalar) bs = Ok p ∧ page_of cs p.
Proof.
  intros H Hc Hw. destruct (python_nim_fractions checks scalar cs bs H Hc) as (p & R & P).
  - eapply list.Forall_impl; [exact Hw|]. intros c Hs _ _. destruct c; simpl in *; lia.
  - exists p. split; [done|]. replace (map stretched cs) with cs in P; [done|].
    clear -Hw. induction Hw as [|c cs Hs _ IH]; [done|]. cbn [map]. by rewrite whole_stretched, <- IH.
Qed.

Lemma python_cpython scalar cs bs : python_page cs bs → Forall cell_ok cs →
  ∃ p, readPickledPage (cpython_decoders scalar) bs = Ok p ∧ page_of cs p.
Proof.
  intros H Hc. eexists. split; [|apply page_of_counted]. rewrite (read_python _ (λ c, c) cs); [by rewrite map_id|done|].
  apply list.Forall_forall. intros c Hin. pose proof (proj1 (list.Forall_forall _ _) Hc c Hin) as Hok. split; [done|].
  pose proof (cpython_decode_all scalar [c]) as D. cbn [decode_all] in D.
  destruct (decoded (cpython_decoders scalar) c) as [c'|e]; cbn in D; specialize (D ltac:(by constructor)); congruence.
Qed.
