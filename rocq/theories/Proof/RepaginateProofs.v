(** Proofs about [Model.Repaginate] *)
From Verif.Proof Require Import SliceLemmas ColumnRead DictLemmas ColumnMisc.
From Verif.Model Require Import Repaginate.
From Verif.Spec Require Import Counts.
Local Open Scope nat_scope.

Section proofs.
  Context {A T : Type} `{EqDecision T} (ty : A → T) (kinds : list T).
  Implicit Types (c : column A T) (W : list A).

  Definition chunk (w : nat) W (k : nat) : list A := drop (w * k) (take (w * (k + 1)) W).

  Lemma slice_cut W a b d : a <= b → b <= d →
    drop a (take d W) = drop a (take b W) ++ drop b (take d W).
  Proof.
    intros H1 H2. rewrite <- (take_drop b (take d W)) at 1.
    rewrite take_take, Nat.min_l by lia. etrans; [apply skipn_app|]. f_equal.
    destruct (decide (length W <= b)) as [Hl|Hl].
    - rewrite (drop_ge (take d W)); [by rewrite drop_nil|]. rewrite take_length. lia.
    - rewrite take_length. replace (a - min b (length W)) with 0 by lia. done.
  Qed.

  Lemma chunk_grow w W o e si k :
    w * si <= o → o + e <= w * (si + 1) →
    chunk w (take (o + e) W) k =
      if decide (k = si) then chunk w (take o W) k ++ drop o (take (o + e) W) else chunk w (take o W) k.
  Proof.
    intros H1 H2. unfold chunk. rewrite !take_take. case_decide as Hk; [subst k|].
    - rewrite !Nat.min_r by lia. apply slice_cut; lia.
    - destruct (decide (k < si)) as [Hlt|Hge].
      + rewrite !Nat.min_l; [done|nia..].
      + rewrite !drop_ge; [done| |]; rewrite take_length; nia.
  Qed.

  Lemma mapM_snoc {X Y} (f : X → option Y) l x ys y :
    mapM f l = Some ys → f x = Some y → mapM f (l ++ [x]) = Some (ys ++ [y]).
  Proof.
    intros Hl Hx. apply mapM_Some. apply mapM_Some in Hl. apply Forall2_app; [done|].
    by repeat constructor.
  Qed.

  (** the values collected for one result page *)
  Definition holds c (w : nat) W (steps : list (list step)) : Prop :=
    ∀ k s, steps !! k = Some s → ∃ buf, mapM (step_data c) s = Some buf ∧ concat buf = chunk w W k.

  Definition shapes c : list nat := map (λ p, length (pdata p)) c.

  Lemma col_iter_take c pg : length (col_iter (take pg c)) = sum_list (take pg (shapes c)).
  Proof.
    revert pg. induction c as [|p c IH]; intros [|pg]; try done.
    change (take (S pg) (p :: c)) with (p :: take pg c). rewrite col_iter_cons, app_length, IH. done.
  Qed.

  Lemma page_part c pg p a b : c !! pg = Some p → a <= b → b <= length (pdata p) →
    let o := length (col_iter (take pg c)) in
    drop a (take b (pdata p)) = drop (o + a) (take (o + b) (col_iter c)).
  Proof.
    intros Hp Hab Hb o. rewrite <- (take_drop_middle c pg p Hp) at 1.
    rewrite col_iter_app, col_iter_cons. fold o.
    replace (take (o + b) (col_iter (take pg c) ++ pdata p ++ col_iter (drop (S pg) c)))
      with (col_iter (take pg c) ++ take b (pdata p)).
    2:{ rewrite firstn_app. fold o. rewrite (take_ge (col_iter (take pg c)) (o + b)) by (fold o; lia). f_equal.
        replace (o + b - o) with b by lia. symmetry. apply take_app_le. lia. }
    rewrite <- drop_drop. by rewrite drop_app_alt by done.
  Qed.

  Lemma calc_loop_ok c w fuel steps si o pg cons pc :
    0 < w →
    length steps = Z.to_nat (cdiv (zlen (col_iter c)) (Z.of_nat w)) →
    o = si * w + pc → pc < w →
    o = length (col_iter (take pg c)) + cons →
    (∀ p, c !! pg = Some p → cons <= length (pdata p)) →
    o <= length (col_iter c) →
    (length (col_iter c) - o) + (length c - pg) <= fuel →
    holds c w (take o (col_iter c)) steps →
    ∃ steps', calc_loop fuel (map plen c) (Z.of_nat w) (zlen (col_iter c)) steps
                (Z.of_nat si) (Z.of_nat o) (Z.of_nat pg) (Z.of_nat cons) (Z.of_nat pc) = Ok steps' ∧
      length steps' = length steps ∧ holds c w (col_iter c) steps'.
  Proof.
    intros Hw. revert steps si o pg cons pc.
    induction fuel as [|fuel IH]; intros steps si o pg cons pc Hlen Hsi Hpc Hpg Hcons Ho Hf Hh;
      cbn [calc_loop]; destruct (Z.ltb_spec (Z.of_nat o) (zlen (col_iter c))) as [Hlt|Hge].
    - exfalso. assert (pg < length c) by lia || idtac. lia.
    - exists steps. rewrite take_ge in Hh by lia. done.
    - assert (Hpgl : pg < length c).
      { destruct (decide (pg < length c)) as [|Hn]; [done|]. rewrite take_ge in Hpg by lia. lia. }
      destruct (lookup_lt_is_Some_2 c pg Hpgl) as [p Hp]. specialize (Hcons p Hp).
      assert (Hz : znth (map plen c) (Z.of_nat pg) = Some (Z.of_nat (length (pdata p)))).
      { unfold znth. destruct (Z.ltb_spec (Z.of_nat pg) 0); [lia|]. rewrite Nat2Z.id.
        rewrite list_lookup_fmap. rewrite Hp. done. }
      rewrite Hz. cbv zeta.
      set (e := min (min (length (col_iter c) - o) (w - pc)) (length (pdata p) - cons)).
      replace (Z.min (Z.min (zlen (col_iter c) - Z.of_nat o) (Z.max (Z.of_nat w - Z.of_nat pc) 0))
                 (zlen (pdata p) - Z.of_nat cons)) with (Z.of_nat e) by lia.
      assert (Hsil : si < length steps).
      { pose proof (cdiv_pos_spec (zlen (col_iter c)) (Z.of_nat w) ltac:(lia)). nia. }
      destruct (lookup_lt_is_Some_2 steps si Hsil) as [s Hs].
      unfold add_step. replace (znth steps (Z.of_nat si)) with (Some s).
      2:{ unfold znth. destruct (Z.ltb_spec (Z.of_nat si) 0); [lia|]. by rewrite Nat2Z.id. }
      cbv iota. rewrite Nat2Z.id.
      set (steps' := <[si := _]> steps).
      assert (Hh' : holds c w (take (o + e) (col_iter c)) steps').
      { intros k s'. unfold steps'. intros Hk.
        rewrite (chunk_grow w _ o e si k) by lia.
        destruct (decide (k = si)) as [->|Hne].
        - rewrite list_lookup_insert in Hk by done. injection Hk as <-.
          destruct (Hh si s Hs) as (buf & Hbuf & Hc).
          exists (buf ++ [drop cons (take (cons + e) (pdata p))]). split.
          + apply mapM_snoc; [done|]. unfold step_data, znth. destruct (Z.ltb_spec (Z.of_nat pg) 0); [lia|]. rewrite Nat2Z.id, Hp.
            unfold arr_slice. rewrite getslice_between by lia. rewrite <- Nat2Z.inj_add.
            by rewrite !Nat2Z.id.
          + rewrite concat_app, Hc. f_equal. cbn. rewrite app_nil_r.
            rewrite (page_part c pg p) by (done || lia). by rewrite Nat.add_assoc, <- Hpg.
        - rewrite list_lookup_insert_ne in Hk by done. apply Hh. done. }
      assert (Hlen' : length steps' = length steps) by apply insert_length.
      rewrite <- !Nat2Z.inj_add.
      assert (Hnext : length (col_iter (take (S pg) c)) = length (col_iter (take pg c)) + length (pdata p)).
      { rewrite (take_S_r _ _ _ Hp), col_iter_app, app_length. unfold col_iter at 2. cbn.
        by rewrite app_nil_r. }
      destruct (Z.eqb_spec (Z.of_nat (pc + e)) (Z.of_nat w)) as [E1|E1];
      destruct (Z.eqb_spec (Z.of_nat (cons + e)) (zlen (pdata p))) as [E2|E2];
      rewrite <- ?Nat2Z.inj_succ;
      replace (Z.of_nat si + 1)%Z with (Z.of_nat (S si)) by lia;
      replace (Z.of_nat pg + 1)%Z with (Z.of_nat (S pg)) by lia;
      change 0%Z with (Z.of_nat 0);
      rewrite <- Hlen'; apply IH; try done; try lia; try nia;
      intros p' Hp'; try lia;
      pose proof (eq_trans (eq_sym Hp) Hp') as [= <-]; lia.
    - exists steps. rewrite take_ge in Hh by lia. done.
  Qed.

  Definition kinds_page (p : page A T) : Prop := count_kinds ty kinds (pdata p) = Ok (ptypes p).

  Lemma chunk_elem w W k x : x ∈ chunk w W k → x ∈ W.
  Proof.
    clear. unfold chunk. intros [i Hi]%elem_of_list_lookup.
    rewrite lookup_drop in Hi. apply lookup_take_Some in Hi as [Hi _].
    by eapply elem_of_list_lookup_2.
  Qed.

  Lemma make_pages_ok c w W k steps :
    (∀ i s, steps !! i = Some s → ∃ buf, mapM (step_data c) s = Some buf ∧ concat buf = chunk w W (k + i)) →
    match make_pages ty kinds c steps with
    | Ok c' => map pdata c' = map (chunk w W) (seq k (length steps)) ∧ Forall kinds_page c'
    | Err e => e = KeyError ∧ ∃ x, x ∈ W ∧ ty x ∉ kinds
    end.
  Proof.
    revert k. induction steps as [|s steps IH]; intros k Hs; [done|].
    destruct (Hs 0 s eq_refl) as (buf & Hb & Hc). rewrite Nat.add_0_r in Hc.
    specialize (IH (S k)). cbn [make_pages]. rewrite Hb, Hc.
    destruct (count_kinds ty kinds (chunk w W k)) as [d|e] eqn:Hck; cbn [res_bind].
    - destruct (make_pages ty kinds c steps) as [c'|e] eqn:Hm; cbn [res_map].
      + destruct IH as [Hd Hk].
        { intros i s' Hi. destruct (Hs (S i) s' Hi) as (b & ? & ?). exists b. split; [done|].
          by replace (S k + i) with (k + S i) by lia. }
        cbn [map length seq]. rewrite Hd. split; [done|]. by constructor.
      + apply IH. intros i s' Hi. destruct (Hs (S i) s' Hi) as (b & ? & ?). exists b. split; [done|].
        by replace (S k + i) with (k + S i) by lia.
    - unfold count_kinds in Hck. destruct (forallb _ _) eqn:Hf; [done|]. injection Hck as <-.
      split; [done|]. apply not_true_iff_false in Hf.
      destruct (decide (Forall (λ x, ty x ∈ kinds) (chunk w W k))) as [Ha|Ha].
      + exfalso. apply Hf, forallb_forall. intros x Hx. apply bool_decide_eq_true.
        apply elem_of_list_In in Hx. exact (proj1 (list.Forall_forall _ _) Ha x Hx).
      + apply not_Forall_Exists in Ha; [|apply _]. apply list.Exists_exists in Ha as (x & Hx & Hn).
        exists x. split; [by eapply chunk_elem|done].
  Qed.

  Theorem repaginate_ok (ps : Z) c :
    (0 < ps)%Z →
    match repaginate ty kinds ps c with
    | Ok c' => map pdata c' = paginate ps (col_iter c) ∧ Forall kinds_page c'
    | Err e => e = KeyError ∧ ∃ x, x ∈ col_iter c ∧ ty x ∉ kinds
    end.
  Proof.
    intros Hps. rewrite paginate_chunks by done. unfold repaginate.
    destruct c as [|p0 c0]; [done|]. set (c := p0 :: c0) in *.
    unfold calc_steps.
    assert (Hsum : fold_left Z.add (map plen c) 0%Z = zlen (col_iter c)).
    { rewrite <- (col_len_iter c). unfold col_len.
      generalize 0%Z. clearbody c. clear. induction c as [|p c IH]; intros z; [done|]. cbn. apply IH. }
    cbv zeta. rewrite Hsum, map_length, Nat2Z.id.
    set (w := Z.to_nat ps). assert (Hwp : Z.of_nat w = ps) by lia.
    set (n := Z.to_nat (cdiv (zlen (col_iter c)) ps)).
    destruct (calc_loop_ok c w (length (col_iter c) + length c) (replicate n []) 0 0 0 0 0)
      as (steps & Hs & Hl & Hh); try lia.
    - by rewrite replicate_length, Hwp.
    - done.
    - intros k s Hk. exists []. apply lookup_replicate in Hk as [-> _]. split; [done|].
      unfold chunk. rewrite take_0, take_nil, drop_nil. done.
    - rewrite Hwp in Hs. change (Z.of_nat 0) with 0%Z in Hs. rewrite Hs. cbn [res_bind].
      pose proof (make_pages_ok c w (col_iter c) 0 steps Hh) as Hm.
      destruct (make_pages ty kinds c steps); [|done].
      destruct Hm as [Hd ?]. split; [|done]. by rewrite Hd, Hl, replicate_length.
  Qed.

  (** ** type counts with entries of value zero *)
  Definition zdict (d : list (T * Z)) (ks : list T) : Prop :=
    NoDup d.*1 ∧ ∀ k, dget_or d k 0%Z = cnt k ks.

  Lemma count_kinds_ok l d : NoDup kinds → count_kinds ty kinds l = Ok d → zdict d (map ty l).
  Proof.
    unfold count_kinds. intros Hnd. case (forallb _ l); [|done]. intros [= <-].
    change (map ty l) with ([] ++ map ty l).
    assert (Hz : zdict (map (λ k, (k, 0%Z)) kinds) []).
    { split.
      - replace ((map (λ k, (k, 0%Z)) kinds).*1) with kinds; [done|].
        clear. induction kinds as [|x xs IH]; [done|]. cbn [map]. rewrite fmap_cons. by f_equal.
      - intros k. clear. unfold dget_or. induction kinds as [|x xs IH]; [done|]. cbn. case_decide; done. }
    revert Hz. generalize (map (λ k, (k, 0%Z)) kinds). generalize (@nil T).
    clear. induction l as [|x l IH]; intros ks d Hd; cbn; [by rewrite app_nil_r|].
    replace (ks ++ ty x :: map ty l) with ((ks ++ [ty x]) ++ map ty l) by (by rewrite <- app_assoc).
    apply IH. destruct Hd as [Hn Hd]. split; [by apply dset_NoDup|].
    intros k. unfold dget_or at 1. rewrite dget_dset, cnt_app, cnt_cons, cnt_nil, Hd.
    case_decide as Hk.
    - subst k. rewrite decide_True by done. cbn. lia.
    - rewrite decide_False by congruence. change (default 0%Z (dget d k)) with (dget_or d k 0%Z).
      rewrite Hd. lia.
  Qed.

  Lemma counter_iadd_zdict (d o : list (T * Z)) ks ls :
    cdict d ks → zdict o ls → cdict (counter_iadd d o) (ks ++ ls).
  Proof.
    intros Hd [Hno Ho]. unfold counter_iadd.
    pose proof (add_fold_NoDup o d (proj1 Hd)) as Hnd.
    split; [by apply filter_keys_NoDup|]. intros k. rewrite dget_filter by done.
    rewrite add_fold by done. rewrite (cdict_get_or _ _ k Hd), cnt_app.
    specialize (Ho k). unfold dget_or in Ho.
    pose proof (cnt_pos k ks). pose proof (cnt_pos k ls). rewrite (proj2 Hd).
    destruct (dget o k); cbn in Ho; rewrite <- Ho; cbn; repeat case_decide; cbn in *; try lia; f_equal; lia.
  Qed.

  Lemma col_types_kinds c : NoDup kinds → Forall kinds_page c → counts_exactly (col_types c) (map ty (col_iter c)).
  Proof.
    intros Hn Hc. apply cdict_counts. unfold col_types.
    change (map ty (col_iter c)) with ([] ++ map ty (col_iter c)).
    generalize (@cdict_nil T _). generalize (@nil T). generalize (@nil (T * Z)).
    induction Hc as [|p c Hp Hc IH]; intros d ks Hd; simpl.
    - by rewrite app_nil_r.
    - rewrite col_iter_cons, map_app, app_assoc. apply IH. apply counter_iadd_zdict; [done|].
      by apply count_kinds_ok.
  Qed.


  Lemma kinds_page_elem p x : kinds_page p → x ∈ pdata p → ty x ∈ kinds.
  Proof.
    unfold kinds_page, count_kinds. destruct (forallb _ _) eqn:Hf; [|done]. intros _ Hx.
    rewrite forallb_forall in Hf. apply elem_of_list_In in Hx. apply Hf in Hx. by apply bool_decide_eq_true in Hx.
  Qed.

  Theorem repaginate_spec (ps : Z) c :
    (0 < ps)%Z → NoDup kinds →
    (∀ c', repaginate ty kinds ps c = Ok c' →
       col_iter c' = col_iter c ∧
       Forall (λ p, (1 <= plen p <= ps)%Z) c' ∧
       (∀ c1 p q c2, c' = c1 ++ p :: q :: c2 → plen p = ps) ∧
       counts_exactly (col_types c') (map ty (col_iter c))) ∧
    ((∃ c', repaginate ty kinds ps c = Ok c') ↔ ∀ x, x ∈ col_iter c → ty x ∈ kinds).
  Proof.
    intros Hps Hnd. pose proof (repaginate_ok ps c Hps) as Hr.
    assert (Hval : ∀ c', map pdata c' = paginate ps (col_iter c) → col_iter c' = col_iter c).
    { intros c' Hd. unfold col_iter at 1. rewrite Hd. by apply paginate_concat. }
    split.
    - intros c' Hc. rewrite Hc in Hr. destruct Hr as [Hd Hk].
      pose proof (Hval c' Hd) as Hv. split_and!.
      + done.
      + pose proof (paginate_bounds ps (col_iter c) Hps) as Hb. rewrite <- Hd in Hb.
        by apply Forall_map in Hb.
      + intros c1 p q c2 ->. rewrite map_app in Hd. cbn [map] in Hd. symmetry in Hd.
        by apply paginate_full in Hd.
      + rewrite <- Hv. by apply col_types_kinds.
    - destruct (repaginate ty kinds ps c) as [c'|e].
      + split; [|by eauto]. intros _ x Hx. destruct Hr as [Hd Hk]. rewrite <- (Hval c' Hd) in Hx.
        unfold col_iter in Hx. apply elem_of_list_In, in_concat in Hx as (l & Hl & Hx).
        apply in_map_iff in Hl as (p & <- & Hp). apply elem_of_list_In in Hx, Hp.
        eapply kinds_page_elem; [|done]. exact (proj1 (list.Forall_forall _ _) Hk p Hp).
      + destruct Hr as (-> & x & Hx & Hn). split; [by intros [? ?]|]. intros Ha. by destruct Hn; apply Ha.
  Qed.
End proofs.
