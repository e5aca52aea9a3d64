(** Reading columns: lengths, pagination, slices, single elements. *)
From Verif.Spec Require Import PyList.
From Verif.Model Require Import Column.
From Verif.Proof Require Export SliceLemmas.
From Coq Require Import ZifyBool.
Local Open Scope Z_scope.

(** ** intercept with a page's range *)
Lemma cdiv_pos_spec x s : 0 < s → x <= cdiv x s * s < x + s.
Proof. intros Hs. unfold cdiv. zdm; nia. Qed.

Lemma rlen_rlist r : 0 < r_step r → rlen r = zlen (rlist r).
Proof. intros. unfold rlen, rlist. by rewrite rlen_count. Qed.

Lemma rlen_zero r : 0 < r_step r → rlen r = 0 ↔ r_stop r <= r_start r.
Proof.
  intros Hs. rewrite rlen_rlist by done. unfold rlist.
  destruct (Z.le_gt_cases (r_stop r) (r_start r)).
  - rewrite py_range_nil by done. simpl. lia.
  - rewrite py_range_cons by done. simpl. lia.
Qed.

Lemma in_range_empty a b s i : b <= a → in_range a b s i = false.
Proof. unfold in_range. lia. Qed.

Lemma mod_sub_mult x k s : 0 < s → (x - k * s) mod s = x mod s.
Proof. intros. replace (x - k * s) with (x + (- k) * s) by lia. apply Z.mod_add. lia. Qed.

Lemma intercept_page start end_ a b s :
  start <= end_ → 0 < s →
  ∃ ro, intercept (Rng start end_ 1) (Rng a b s) = Ok ro ∧ 0 < r_step ro ∧
    ((rlen ro = 0 ∧ ∀ i, start <= i < end_ → in_range a b s i = false) ∨
     (rlen ro ≠ 0 ∧ start <= r_start ro ∧ r_stop ro <= end_ ∧
      ∀ i, start <= i < end_ →
        in_range (r_start ro) (r_stop ro) (r_step ro) i = in_range a b s i)).
Proof.
  intros Hse Hs. unfold intercept, straighten. cbn [r_start r_stop r_step].
  destruct (Z.ltb_spec s 1); [lia|]. change (1 <? 1) with false. cbv iota. cbn [r_start r_stop r_step].
  assert (Hz : rlen rempty = 0) by reflexivity.
  destruct (Z.eqb_spec (rlen (Rng start end_ 1)) 0) as [H0|H0].
  { apply rlen_zero in H0; [|done]. simpl in H0. exists rempty. split; [reflexivity|split; [cbn; lia|]].
    left. split; [done|]. lia. }
  destruct (Z.eqb_spec (rlen (Rng a b s)) 0) as [H1|H1].
  { apply rlen_zero in H1; [|done]. simpl in H1. exists rempty. split; [reflexivity|split; [cbn; lia|]].
    left. split; [done|]. intros. apply in_range_empty. lia. }
  rewrite rlen_zero in H0, H1 by done. cbn [r_start r_stop r_step] in *.
  destruct (Z.leb_spec end_ a).
  { exists rempty. split; [reflexivity|split; [cbn; lia|]]. left. split; [done|].
    intros. unfold in_range. lia. }
  destruct (Z.leb_spec b start).
  { exists rempty. split; [reflexivity|split; [cbn; lia|]]. left. split; [done|].
    intros. unfold in_range. lia. }
  set (st := Z.max start a).
  set (en := Z.min end_ b).
  assert (Est : (if start <=? a
     then if end_ <=? b then (a, end_) else (a, b)
     else if end_ <=? b then (start, end_) else (start, b)) = (st, en)).
  { unfold st, en. destruct (Z.leb_spec start a), (Z.leb_spec end_ b); f_equal; lia. }
  rewrite Est. change (1 =? 1) with true. cbn [orb].
  pose proof (cdiv_pos_spec (st - start) 1 ltac:(lia)) as Ha1.
  pose proof (cdiv_pos_spec (st - a) s ltac:(lia)) as Hb1.
  set (k := cdiv (st - a) s) in *.
  assert (Ea : cdiv (st - start) 1 * 1 + start = st) by lia.
  rewrite Ea. replace (Z.max 1 s) with s by lia.
  assert (Emax : Z.max st (k * s + a) = k * s + a) by lia. rewrite Emax.
  eexists. split; [reflexivity|]. cbn [r_start r_stop r_step]. split; [lia|].
  assert (Heq : ∀ i, start <= i < end_ → in_range (k * s + a) en s i = in_range a b s i).
  { intros i Hi. unfold in_range.
    replace (i - (k * s + a)) with ((i - a) - k * s) by lia. rewrite mod_sub_mult by lia.
    destruct (Z.eqb_spec ((i - a) mod s) 0) as [Hm|]; [|lia].
    destruct (Z.leb_spec a i) as [Hai|]; [|lia].
    assert (k * s + a <= i) as Hk; [|lia].
    apply Z.mod_divide in Hm as [q Hq]; [|lia].
    assert (st - a <= q * s) by lia.
    assert (k <= q); [|nia]. assert ((k - 1) * s < q * s) by lia. nia. }
  destruct (Z.eq_dec (rlen (Rng (k * s + a) en s)) 0) as [Hr|Hr].
  - left. split; [done|]. intros i Hi. rewrite <- Heq by done.
    apply rlen_zero in Hr; [|done]. apply in_range_empty. exact Hr.
  - right. split_and!; try lia. done.
Qed.

(** straightened ranges *)
Lemma intercept_straight start end_ a b s :
  s < 1 → intercept (Rng start end_ 1) (Rng a b s)
        = intercept (Rng start end_ 1) (Rng (b + 1) (a + 1) 1).
Proof.
  intros Hs. unfold intercept.
  assert (straighten (Rng a b s) = straighten (Rng (b + 1) (a + 1) 1)) as ->; [|done].
  unfold straighten. cbn [r_step]. destruct (Z.ltb_spec s 1); [done|lia].
Qed.

Section proofs.
  Context {A T : Type} `{EqDecision T} (ty : A → T).
  Implicit Types (c : column A T) (p : page A T).

  Lemma fold_len c n : fold_left (λ n p, n + plen p) c n = n + zlen (col_iter c).
  Proof.
    revert n. induction c as [|p c IH]; intros n; simpl; [lia|].
    rewrite IH. unfold plen, col_iter. simpl. rewrite app_length. lia.
  Qed.

  Lemma col_len_iter c : col_len c = zlen (col_iter c).
  Proof. unfold col_len. rewrite fold_len. lia. Qed.

  Lemma col_iter_app c d : col_iter (c ++ d) = col_iter c ++ col_iter d.
  Proof. unfold col_iter. by rewrite map_app, concat_app. Qed.
  Lemma col_iter_cons p c : col_iter (p :: c) = pdata p ++ col_iter c.
  Proof. done. Qed.

  Lemma col_iter_new_pages (xss : list (list A)) :
    col_iter (map (new_page ty) xss) = concat xss.
  Proof. unfold col_iter. rewrite map_map. simpl. by rewrite map_id. Qed.

  (** ** _paginate *)
  Lemma paginate_loop_spec ps (values : list A) n start :
    0 < ps → 0 <= start →
    let ends := map (λ k, start + ps * (Z.of_nat k + 1)) (seq 0 n) in
    paginate_loop values start ends
    = map (λ k, drop (Z.to_nat (start + ps * Z.of_nat k))
                     (take (Z.to_nat (start + ps * (Z.of_nat k + 1))) values)) (seq 0 n).
  Proof.
    intros Hps. revert start. induction n as [|n IH]; intros start Hst; [done|].
    cbn [seq map paginate_loop]. f_equal.
    - unfold arr_slice. rewrite getslice_between by lia.
      replace (start + ps * Z.of_nat 0) with start by lia. done.
    - rewrite <- seq_shift, !map_map.
      replace (start + ps * (Z.of_nat 0 + 1)) with (start + ps * 1) by lia.
      rewrite (map_ext _ (λ k, start + ps * 1 + ps * (Z.of_nat k + 1))) by (intros; lia).
      specialize (IH (start + ps * 1) ltac:(lia)). cbv zeta in IH.
      rewrite IH. apply map_ext. intros k.
      replace (start + ps * 1 + ps * Z.of_nat k) with (start + ps * Z.of_nat (S k)) by lia.
      replace (start + ps * 1 + ps * (Z.of_nat k + 1)) with (start + ps * (Z.of_nat (S k) + 1)) by lia.
      done.
  Qed.

  Lemma concat_chunks (values : list A) (w : nat) n :
    concat (map (λ k, drop (w * k) (take (w * (k + 1)) values)) (seq 0 n)) = take (w * n) values.
  Proof.
    induction n as [|n IH]; [by rewrite Nat.mul_0_r|].
    rewrite seq_S, map_app, concat_app, IH. simpl. rewrite app_nil_r.
    replace (w * S n)%nat with (w * (n + 1))%nat by lia.
    rewrite <- (take_drop (w * n) (take (w * (n + 1)) values)) at 2.
    rewrite take_take. f_equal. f_equal. lia.
  Qed.

  Lemma paginate_chunks ps (values : list A) :
    0 < ps →
    paginate ps values =
      map (λ k, drop (Z.to_nat ps * k) (take (Z.to_nat ps * (k + 1)) values))
          (seq 0 (Z.to_nat (cdiv (zlen values) ps))).
  Proof.
    intros Hps. unfold paginate.
    set (m := cdiv (zlen values) ps).
    assert (Hm : 0 <= m) by (unfold m, cdiv; zdm; nia).
    assert (Hends : py_range ps (m * ps + 1) ps
      = map (λ k, 0 + ps * (Z.of_nat k + 1)) (seq 0 (Z.to_nat m))).
    { unfold py_range, range_count. destruct (Z.ltb_spec 0 ps); [|lia].
      replace ((m * ps + 1 - ps + ps - 1) / ps) with m.
      2:{ replace (m * ps + 1 - ps + ps - 1) with (m * ps) by lia. by rewrite Z.div_mul by lia. }
      unfold seqZ. change (map ?f (?g <$> ?l)) with (f <$> (g <$> l)).
      rewrite <- list_fmap_compose. apply list_fmap_ext. intros ? k _. simpl. lia. }
    rewrite Hends, paginate_loop_spec by lia.
    apply map_ext. intros k. f_equal; [lia|]. f_equal. lia.
  Qed.

  Lemma paginate_concat ps (values : list A) :
    0 < ps → concat (paginate ps values) = values.
  Proof.
    intros Hps. rewrite paginate_chunks by done. rewrite concat_chunks.
    apply take_ge. pose proof (cdiv_pos_spec (zlen values) ps Hps). nia.
  Qed.

  Lemma paginate_bounds ps (values : list A) :
    0 < ps → Forall (λ xs, 1 <= zlen xs <= ps) (paginate ps values).
  Proof.
    intros Hps. rewrite paginate_chunks by done. apply Forall_map, list.Forall_forall.
    intros k Hk%elem_of_seq. rewrite drop_length, take_length.
    pose proof (cdiv_pos_spec (zlen values) ps Hps). nia.
  Qed.

  (** all pages but the last are full *)
  Lemma paginate_full ps (values : list A) xs1 x y xs2 :
    0 < ps → paginate ps values = xs1 ++ x :: y :: xs2 → zlen x = ps.
  Proof.
    intros Hps. rewrite paginate_chunks by done. intros Hp.
    set (n := Z.to_nat (cdiv (zlen values) ps)) in *.
    assert (Hn : (length xs1 + 1 < n)%nat).
    { apply (f_equal length) in Hp. rewrite map_length, seq_length, app_length in Hp.
      simpl in Hp. lia. }
    apply (f_equal (λ l, l !! length xs1)) in Hp.
    rewrite list_lookup_middle in Hp by done.
    rewrite list_lookup_fmap, lookup_seq_lt in Hp by lia. simpl in Hp.
    injection Hp as <-. rewrite drop_length, take_length.
    pose proof (cdiv_pos_spec (zlen values) ps Hps). nia.
  Qed.

  Lemma paginate_nil ps : 0 < ps → paginate ps ([] : list A) = [].
  Proof. intros. rewrite paginate_chunks by done. done. Qed.

  Lemma col_extend_iter ps c values :
    0 < ps → col_iter (col_extend ty ps c values) = col_iter c ++ values.
  Proof.
    intros Hps. unfold col_extend.
    rewrite col_iter_app, col_iter_new_pages, paginate_concat by done. done.
  Qed.

  (** ** getpages *)
  Lemma page_slice (l : list A) off rs re st :
    0 < st → off <= rs → re <= off + zlen l → rs < re →
    py_getslice l (Slice (Some (rs - off)) (Some (re - off)) (Some st))
    = filter_pos (in_range rs re st) off l.
  Proof.
    intros Hst Hrs Hre Hgt.
    erewrite py_getslice_filter; [|exact Hst|].
      2:{ unfold slice_indices, sl_stepv. simpl. destruct (Z.ltb_spec st 0); [lia|].
          destruct (Z.ltb_spec (rs - off) 0); [lia|].
          destruct (Z.ltb_spec (re - off) 0); [lia|]. reflexivity. }
      rewrite !Z.min_l by lia.
      replace off with (0 + off) at 3 by lia. rewrite filter_pos_shift.
      apply filter_pos_ext. intros i Hi. unfold in_range.
      replace (i - (rs - off)) with (i + off - rs) by lia. lia.
  Qed.

  Lemma omap_all_length {B C} (f : B → option C) (l : list B) :
    Forall (λ x, is_Some (f x)) l → length (omap f l) = length l.
  Proof.
    induction 1 as [|x l [y Hy] _ IH]; [done|]. rewrite omap_cons, Hy. simpl. by rewrite IH.
  Qed.

  Lemma page_whole (l : list A) off ro :
    0 < r_step ro → off <= r_start ro → r_stop ro <= off + zlen l →
    rlen ro = zlen l →
    filter_pos (in_range (r_start ro) (r_stop ro) (r_step ro)) off l = l.
  Proof.
    intros Hst Hrs Hre Hlen. apply filter_pos_full.
    rewrite <- omap_range_filter by done.
    rewrite omap_all_length.
    - rewrite rlen_rlist in Hlen by done. unfold rlist in Hlen. lia.
    - apply list.Forall_forall. intros i Hi. rewrite elem_of_py_range in Hi by done.
      unfold in_range in Hi. apply znth_Some. lia.
  Qed.

  Lemma getpages_loop_spec (rv : bool) ss se ri a b s off c :
    0 < s →
    (∀ start end_, intercept (Rng start end_ 1) ri = intercept (Rng start end_ 1) (Rng a b s)) →
    (∀ i, in_range a b s i = true → if rv then se < i <= ss else ss <= i < se) →
    ∃ pages, getpages_loop rv ss se ri off c = Ok pages ∧
             concat pages = filter_pos (in_range a b s) off (col_iter c).
  Proof.
    intros Hs Hint Hin. revert off. induction c as [|p c IH]; intros off; simpl.
    { by exists []. }
    rewrite col_iter_cons, filter_pos_app. fold (plen p).
    destruct (IH (off + plen p)) as (pages & Hpages & Hconc).
    assert (Hrest : ∀ x, filter_pos (in_range a b s) off (pdata p) = x →
      ∃ pages0, res_map (cons x) (getpages_loop rv ss se ri (off + plen p) c) = Ok pages0 ∧
        concat pages0 = filter_pos (in_range a b s) off (pdata p) ++
          filter_pos (in_range a b s) (off + plen p) (col_iter c)).
    { intros x <-. rewrite Hpages. eexists; split; [reflexivity|]. simpl. by rewrite Hconc. }
    assert (Hskip : filter_pos (in_range a b s) off (pdata p) = [] →
      ∃ pages0, getpages_loop rv ss se ri (off + plen p) c = Ok pages0 ∧
        concat pages0 = filter_pos (in_range a b s) off (pdata p) ++
          filter_pos (in_range a b s) (off + plen p) (col_iter c)).
    { intros ->. simpl. eauto. }
    destruct (if rv then ss <? off else se <? off) eqn:Hbrk.
    { exists []. split; [done|]. simpl. symmetry.
      assert (Hf : ∀ i, off <= i → in_range a b s i = false).
      { intros i Hi. destruct (in_range a b s i) eqn:E; [|done]. apply Hin in E.
        destruct rv; lia. }
      rewrite !filter_pos_false; [done|..]; intros i Hi; apply Hf; unfold plen in *; lia. }
    destruct (if rv then _ else _) eqn:Hcont in |- *.
    { apply Hskip, filter_pos_false. intros i Hi.
      destruct (in_range a b s i) eqn:E; [|done]. apply Hin in E.
      unfold plen in *. destruct rv; lia. }
    rewrite Hint.
    destruct (intercept_page off (off + plen p) a b s) as (ro & -> & Hst & Hro);
      [unfold plen; lia|done|]. simpl.
    destruct Hro as [[Hz Hf]|(Hz & Hrs & Hre & Heq)].
    - rewrite Hz. simpl. apply Hskip, filter_pos_false. exact Hf.
    - destruct (Z.eqb_spec (rlen ro) 0); [done|].
      assert (Hfp : filter_pos (in_range a b s) off (pdata p) =
              filter_pos (in_range (r_start ro) (r_stop ro) (r_step ro)) off (pdata p)).
      { apply filter_pos_ext. intros i Hi. symmetry. by apply Heq. }
      destruct (Z.eqb_spec (rlen ro) (plen p)) as [Hfull|_].
      + apply Hrest. rewrite Hfp. by apply page_whole.
      + apply Hrest. rewrite Hfp. symmetry. apply page_slice; try done. rewrite rlen_zero in Hz by done. lia.
  Qed.

  Lemma col_getslice_pos c s :
    0 < sl_stepv s → col_getslice c s = Ok (py_getslice (col_iter c) s).
  Proof.
    intros Hs. unfold col_getslice, getpages.
    destruct (Z.eqb_spec (sl_stepv s) 0); [lia|].
    assert (match sl_step s with Some k => negb (0 <? k) | None => false end = false) as ->.
    { unfold sl_stepv in Hs. destruct (sl_step s); simpl in *; lia. }
    rewrite col_len_iter.
    destruct (slice_indices s (zlen (col_iter c))) as [[a b] st] eqn:E.
    rewrite (py_getslice_filter _ _ a b st) by done.
    apply slice_indices_pos in E as (Ha & Hb & ->); [|lia|done].
    destruct (getpages_loop_spec false a b (Rng a b (sl_stepv s)) a b (sl_stepv s) 0 c)
      as (pages & -> & Hc); try done.
    { intros i Hi. unfold in_range in Hi. lia. }
    simpl. by rewrite Hc.
  Qed.

  Lemma concat_rev_map (ls : list (list A)) : concat (map (@rev A) (rev ls)) = rev (concat ls).
  Proof.
    induction ls as [|l ls IH]; simpl; [done|].
    rewrite map_app, concat_app, IH, rev_app_distr. simpl. by rewrite app_nil_r.
  Qed.

  (** What a read with a negative step really returns: everything between
      [stop] and [start], in reverse order. *)
  Lemma col_getslice_neg c s a b st :
    sl_stepv s < 0 → slice_indices s (zlen (col_iter c)) = (a, b, st) →
    col_getslice c s = Ok (rev (filter_pos (in_range (b + 1) (a + 1) 1) 0 (col_iter c))).
  Proof.
    intros Hs E. unfold col_getslice, getpages.
    destruct (Z.eqb_spec (sl_stepv s) 0); [lia|].
    assert (match sl_step s with Some k => negb (0 <? k) | None => false end = true) as ->.
    { unfold sl_stepv in Hs. destruct (sl_step s); simpl in *; lia. }
    rewrite col_len_iter, E.
    apply slice_indices_neg in E as (Ha & Hb & ->); [|lia|done].
    destruct (getpages_loop_spec true a b (Rng a b (sl_stepv s)) (b + 1) (a + 1) 1 0 c)
      as (pages & -> & Hc); try done.
    { intros. apply intercept_straight. lia. }
    { intros i Hi. unfold in_range in Hi. lia. }
    simpl. by rewrite concat_rev_map, Hc.
  Qed.

  Lemma py_getslice_neg1 (l : list A) s a b st :
    sl_stepv s = -1 → slice_indices s (zlen l) = (a, b, st) →
    py_getslice l s = rev (filter_pos (in_range (b + 1) (a + 1) 1) 0 l).
  Proof.
    intros Hs E. unfold py_getslice, slice_positions. rewrite E.
    apply slice_indices_neg in E as (Ha & Hb & ->); [|lia|lia]. rewrite Hs.
    rewrite py_range_neg1, omap_rev, omap_range_filter0 by lia. done.
  Qed.

  Lemma col_getslice_neg1 c s :
    sl_stepv s = -1 → col_getslice c s = Ok (py_getslice (col_iter c) s).
  Proof.
    intros Hs. destruct (slice_indices s (zlen (col_iter c))) as [[a b] st] eqn:E.
    rewrite (col_getslice_neg c s a b st) by (done || lia).
    by rewrite (py_getslice_neg1 _ s a b st).
  Qed.

  Lemma col_getslice_zero c s : sl_stepv s = 0 → col_getslice c s = Err ValueError.
  Proof. intros Hs. unfold col_getslice, getpages. by rewrite Hs. Qed.

  (** ** single elements *)
  Lemma getslice_one (l : list A) k :
    py_getslice l (Slice (Some k) (Some (k + 1)) (Some 1)) =
    (if k <? -1 then omap (znth l) [k + zlen l] else omap (znth l) [k]).
  Proof.
    erewrite py_getslice_simple; [|done|reflexivity]. simpl.
    assert (Hone : ∀ j, 0 <= j < zlen l → ∃ x, l !! Z.to_nat j = Some x ∧
      drop (Z.to_nat j) (take (Z.to_nat (j + 1)) l) = [x]).
    { intros j Hj. destruct (lookup_lt_is_Some_2 l (Z.to_nat j)) as [x Hx]; [lia|].
      exists x. split; [done|]. replace (Z.to_nat (j + 1)) with (S (Z.to_nat j)) by lia.
      rewrite (take_S_r _ _ x) by done. apply drop_app_alt. rewrite take_length; lia. }
    destruct (Z.ltb_spec k 0), (Z.ltb_spec (k + 1) 0), (Z.ltb_spec k (-1)); try lia.
    - destruct (decide (0 <= k + zlen l)).
      + destruct (Hone (k + zlen l)) as (x & Hx & Hd); [lia|].
        rewrite !Z.max_l by lia. replace (k + 1 + zlen l) with (k + zlen l + 1) by lia.
        rewrite Hd, znth_lookup, Hx by lia. done.
      + rewrite !Z.max_r by lia. rewrite znth_None by lia. done.
    - assert (k = -1) as -> by lia. rewrite znth_None by lia. simpl.
      rewrite Z.min_l by lia. simpl. rewrite take_0. by rewrite drop_nil.
    - destruct (decide (k < zlen l)).
      + destruct (Hone k) as (x & Hx & Hd); [lia|].
        rewrite !Z.min_l by lia. rewrite Hd, znth_lookup, Hx by lia. done.
      + rewrite !Z.min_r by lia. rewrite znth_None by lia.
        apply drop_ge. rewrite take_length. lia.
  Qed.

  Lemma col_getitem_spec c i :
    col_getitem c i =
      match znth (col_iter c)
              (if i <? 0 then
                 if zlen (col_iter c) + i <? -1 then i + 2 * zlen (col_iter c)
                 else zlen (col_iter c) + i
               else i) with
      | Some x => Ok x
      | None => Err IndexError
      end.
  Proof.
    unfold col_getitem. rewrite col_getslice_pos by done. rewrite getslice_one, col_len_iter.
    cbn [res_bind]. destruct (Z.ltb_spec i 0).
    - destruct (Z.ltb_spec (zlen (col_iter c) + i) (-1)).
      + replace (zlen (col_iter c) + i + zlen (col_iter c)) with (i + 2 * zlen (col_iter c)) by lia.
        rewrite omap_cons. destruct (znth _ _); done.
      + rewrite omap_cons. destruct (znth _ _); done.
    - destruct (Z.ltb_spec i (-1)); [lia|]. rewrite omap_cons. destruct (znth _ _); done.
  Qed.
End proofs.
