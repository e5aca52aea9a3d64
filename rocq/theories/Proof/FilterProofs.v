(** Proofs about [Model.Filter]: the native filter *)
From Verif.Spec Require Import Filter.
From Verif.Spec Require Export FilterTerms.
From Verif.Proof Require Import SliceLemmas ColumnRead DictLemmas TableBase.
From Verif.Model Require Import Filter.
Local Open Scope Z_scope.

Section bits.
  Context {A : Type}.
  Implicit Types (l : list A) (m : list bool).

  Lemma pick_bits_nil b l : pick_bits b [] l = [].
  Proof. done. Qed.
  Lemma pick_bits_cons b x m y l :
    pick_bits b (x :: m) (y :: l) = (if eqb x b then [y] else []) ++ pick_bits b m l.
  Proof. unfold pick_bits. cbn. by destruct (eqb x b). Qed.

  Lemma pick_bits_app b m1 m2 l :
    pick_bits b (m1 ++ m2) l = pick_bits b m1 l ++ pick_bits b m2 (drop (length m1) l).
  Proof.
    revert l. induction m1 as [|x m1 IH]; intros l; [done|].
    destruct l as [|y l]; [by rewrite drop_nil; unfold pick_bits; rewrite !zip_with_nil_r|].
    cbn [app length drop]. rewrite !pick_bits_cons, IH. by rewrite app_assoc.
  Qed.

  Lemma pick_bits_le b m l k : (length m <= length l)%nat → pick_bits b m (l ++ k) = pick_bits b m l.
  Proof.
    revert l. induction m as [|x m IH]; intros [|y l] Hl; cbn [length] in Hl; try done; try lia.
    cbn [app]. rewrite !pick_bits_cons, IH by lia. done.
  Qed.

  (** picking by the test of the position *)
  Lemma pick_bits_seq b none (P : nat → bool) k l :
    pick_bits b (map P (seq k (length l))) l =
    map (λ i, default none (l !! (i - k)%nat)) (filter (λ i, eqb (P i) b = true) (seq k (length l))).
  Proof.
    revert k. induction l as [|y l IH]; intros k; [done|]. cbn [length seq map].
    rewrite pick_bits_cons, IH, filter_cons.
    assert (Hm : ∀ ixs, (∀ i, i ∈ ixs → (S k <= i)%nat) →
      map (λ i, default none (l !! (i - S k)%nat)) ixs = map (λ i, default none ((y :: l) !! (i - k)%nat)) ixs).
    { intros ixs H. apply list_fmap_ext. intros _ i Hi%elem_of_list_lookup_2. apply H in Hi.
      replace (i - k)%nat with (S (i - S k)) by lia. done. }
    rewrite Hm.
    2:{ intros i [_ Hi]%elem_of_list_filter. apply elem_of_seq in Hi. lia. }
    destruct (eqb (P k) b) eqn:E; case_decide; try done; cbn [map app]; rewrite ?Nat.sub_diag; done.
  Qed.
End bits.

Section proofs.
  Context {N A T : Type} `{EqDecision N, EqDecision T} (ty : A → T) (none : A) (ps : Z).
  Implicit Types (c : column A T).

  Lemma dump_slice_iter (l : list A) : col_iter (dump_slice ty l) = l.
  Proof. destruct l; [done|]. unfold dump_slice, col_iter. cbn. by rewrite app_nil_r. Qed.

  Lemma dump_loop_spec mask o c :
    (o <= match c with [] => 0 | p :: _ => length (pdata p) end)%nat →
    (o + length mask <= length (col_iter c))%nat →
    ∃ p f, dump_loop ty mask (Z.of_nat o) c = Ok (p, f) ∧
      col_iter p = pick_bits true mask (drop o (col_iter c)) ∧
      col_iter f = pick_bits false mask (drop o (col_iter c)).
  Proof.
    revert mask o. induction c as [|p c IH]; intros mask o Ho Hl.
    - destruct mask; [|cbn in Hl; lia]. by exists [], [].
    - destruct mask as [|b mask0]; [by exists [], []|]. set (mask := b :: mask0) in *.
      change (dump_loop ty mask (Z.of_nat o) (p :: c)) with
        (let len := plen p - Z.of_nat o in
         let sliceLen := Z.min (zlen mask) len in
         let bits := take (Z.to_nat sliceLen) mask in
         let values := drop (Z.to_nat (Z.of_nat o)) (pdata p) in
         res_map (λ r, (dump_slice ty (pick_bits true bits values) ++ r.1,
                        dump_slice ty (pick_bits false bits values) ++ r.2))
                 (dump_loop ty (drop (Z.to_nat sliceLen) mask) 0 c)).
      cbv zeta. unfold plen. rewrite Nat2Z.id.
      set (k := Z.to_nat (Z.min (zlen mask) (zlen (pdata p) - Z.of_nat o))).
      assert (Hk : k = min (length mask) (length (pdata p) - o)) by lia. clearbody k.
      rewrite col_iter_cons, app_length in Hl.
      destruct (IH (drop k mask) 0%nat) as (p' & f' & Hd & Hp & Hf).
      { destruct c; lia. }
      { rewrite drop_length. lia. }
      change (Z.of_nat 0) with 0 in Hd. rewrite Hd. cbn [res_map].
      assert (Hpick : ∀ b', pick_bits b' mask (drop o (col_iter (p :: c)))
        = pick_bits b' (take k mask) (drop o (pdata p)) ++ pick_bits b' (drop k mask) (drop 0 (col_iter c))).
      { intros b'. rewrite col_iter_cons, drop_app_le by done.
        rewrite <- (take_drop k mask) at 1. rewrite pick_bits_app. rewrite take_length.
        rewrite pick_bits_le by (rewrite take_length, drop_length; lia). f_equal.
        rewrite Nat.min_l by lia. rewrite drop_0.
        destruct (decide (k = length mask)) as [->|Hne].
        - rewrite (drop_ge mask) by lia. done.
        - f_equal. rewrite drop_app_ge; rewrite drop_length; [|lia].
          replace (k - (length (pdata p) - o))%nat with 0%nat by lia. done. }
      exists (dump_slice ty (pick_bits true (take k mask) (drop o (pdata p))) ++ p'),
             (dump_slice ty (pick_bits false (take k mask) (drop o (pdata p))) ++ f').
      split; [done|]. rewrite !col_iter_app, !dump_slice_iter, Hp, Hf, !Hpick. done.
  Qed.

  Lemma first_page_spec offset cur c :
    cur <= offset → offset < cur + zlen (col_iter c) →
    ∃ cur' p c', first_page offset cur c = Some (cur', p :: c') ∧
      cur' <= offset ∧ offset - cur' < zlen (pdata p) ∧
      drop (Z.to_nat (offset - cur)) (col_iter c) = drop (Z.to_nat (offset - cur')) (col_iter (p :: c')).
  Proof.
    revert cur. induction c as [|p c IH]; intros cur H1 H2; [cbn in H2; lia|].
    cbn [first_page]. unfold plen. rewrite col_iter_cons, app_length in H2.
    destruct (Z.ltb_spec offset (cur + zlen (pdata p))).
    - exists cur, p, c. split_and!; try done; lia.
    - destruct (IH (cur + zlen (pdata p))) as (cur' & p' & c' & Hf & ? & ? & Hd); try lia.
      exists cur', p', c'. split_and!; try done. rewrite <- Hd, col_iter_cons.
      rewrite drop_app_ge by lia. f_equal. lia.
  Qed.

  Lemma dump_page_spec o mask c :
    mask ≠ [] → (o + length mask <= length (col_iter c))%nat →
    ∃ p f, dump_page ty (Z.of_nat o) mask c = Ok (p, f) ∧
      col_iter p = pick_bits true mask (drop o (col_iter c)) ∧
      col_iter f = pick_bits false mask (drop o (col_iter c)).
  Proof.
    intros Hne Hl. unfold dump_page.
    destruct (first_page_spec (Z.of_nat o) 0 c) as (cur & p & c' & Hf & H1 & H2 & Hd); [lia| |].
    { destruct mask; [done|]. cbn in Hl. lia. }
    rewrite Hf. rewrite Z.sub_0_r, Nat2Z.id in Hd. rewrite Hd.
    destruct (dump_loop_spec mask (Z.to_nat (Z.of_nat o - cur)) (p :: c')) as (a & b & Hab & ? & ?).
    - lia.
    - apply (f_equal length) in Hd. rewrite !drop_length in Hd. destruct mask; [done|]. cbn [length] in *. lia.
    - exists a, b. rewrite Z2Nat.id in Hab by lia. done.
  Qed.

  (** the state of a column after the first rows, those with bits [M] *)
  Definition st_ok (n : nat) (M : list bool) (s : col_state (N := N) (A := A) (T := T)) : Prop :=
    length (col_iter s.2.1) = n ∧
    col_iter s.2.2.1 = pick_bits true M (col_iter s.2.1) ∧
    col_iter s.2.2.2 = pick_bits false M (col_iter s.2.1).

  Lemma dump_pages_spec n M mask cols :
    mask ≠ [] → (length M + length mask <= n)%nat → Forall (st_ok n M) cols →
    ∃ cols', dump_pages ty (zlen M) mask cols = Ok cols' ∧ Forall (st_ok n (M ++ mask)) cols' ∧
      map (λ s, (s.1, s.2.1)) cols' = map (λ s, (s.1, s.2.1)) cols.
  Proof.
    intros Hne Hl. induction cols as [|[nm [c [p f]]] cols IH]; intros Hc; [by exists []|].
    apply list.Forall_cons in Hc as [(Hlen & Hp & Hf) Hc]. cbn [fst snd] in *.
    destruct (IH Hc) as (cols' & Hd & Hok & Hm). cbn [dump_pages].
    destruct (dump_page_spec (length M) mask c Hne) as (p' & f' & Hdp & Hp' & Hf'); [lia|].
    rewrite Hdp. cbn [res_bind]. rewrite Hd. cbn [res_map]. eexists. split; [done|]. split.
    - constructor; [|done]. unfold st_ok. cbn [fst snd]. rewrite !col_iter_app, Hp, Hf, Hp', Hf'.
      by rewrite !pick_bits_app.
    - cbn [map]. by rewrite Hm.
  Qed.

  Lemma filter_loop_spec n (test : list A → bool) rows mask M cols :
    0 < ps → zlen mask < ps → (length M + length mask + length rows <= n)%nat →
    Forall (st_ok n M) cols →
    ∃ cols', filter_loop ty ps test rows mask (zlen M) cols = Ok cols' ∧
      Forall (st_ok n (M ++ mask ++ map test rows)) cols' ∧
      map (λ s, (s.1, s.2.1)) cols' = map (λ s, (s.1, s.2.1)) cols.
  Proof.
    intros Hps. revert mask M cols. induction rows as [|r rows IH]; intros mask M cols Hm Hl Hc; cbn [filter_loop].
    - cbn [map]. rewrite app_nil_r. destruct mask as [|b mask]; [by exists cols; rewrite app_nil_r|].
      apply dump_pages_spec; [done| |done]. cbn [length] in *. lia.
    - cbn [map length] in *. set (mask' := mask ++ [test r]).
      assert (Hlm : length mask' = S (length mask)) by (unfold mask'; rewrite app_length; cbn; lia).
      replace (mask ++ test r :: map test rows) with (mask' ++ map test rows)
        by (unfold mask'; by rewrite <- app_assoc).
      destruct (Z.leb_spec ps (zlen mask')) as [Hle|Hgt].
      + destruct (dump_pages_spec n M mask' cols) as (cols1 & Hd & Hok & Hn); [by destruct mask|lia|done|].
        rewrite Hd. cbn [res_bind].
        replace (zlen M + zlen mask') with (zlen (M ++ mask')) by (rewrite app_length; lia).
        destruct (IH [] (M ++ mask') cols1) as (cols2 & Hd2 & Hok2 & Hn2).
        * cbn. lia.
        * rewrite app_length. cbn. lia.
        * done.
        * exists cols2. rewrite <- app_assoc in Hok2. by rewrite Hn2.
      + apply IH; [lia|lia|done].
  Qed.

  (** ** rows of the expression columns *)
  Lemma iterate_rows_spec n (its : list (list A)) :
    its ≠ [] → Forall (λ l, length l = n) its →
    iterate_rows n its = map (λ i, map (at_ none i) its) (seq 0 n).
  Proof.
    revert its. induction n as [|n IH]; intros its Hne Hl.
    - destruct its as [|l its]; [done|]. apply list.Forall_cons in Hl as [Hl _].
      destruct l; [|done]. done.
    - cbn [iterate_rows]. rewrite (nexts_spec none) by (by eapply len_nonempty).
      cbn [fst snd seq map]. f_equal. rewrite IH.
      + rewrite <- seq_shift, map_map. apply map_ext. intros i. apply at_drop.
      + by destruct its.
      + by apply drop1_length.
  Qed.

  Lemma find_col_spec (cols : list N) (v : view (N := N) (A := A)) i nm :
    nm ∈ cols → (∀ n, n ∈ cols → n ∈ names v) →
    find_col cols (map (at_ none i) (omap (dget v) cols)) nm = Some (field none v nm i).
  Proof.
    intros Hin Hall. induction cols as [|n cols IH]; [by apply elem_of_nil in Hin|].
    assert (Hn : n ∈ names v) by (apply Hall; by left).
    destruct (dget_in v n Hn) as [l Hl]. cbn [omap list_omap]. rewrite Hl. cbn [map find_col].
    assert (Hfield : ∀ (w : view (N := N) (A := A)) l, dget w n = Some l → at_ none i l = field none w n i).
    { clear. intros w. induction w as [|[m l'] w IH]; intros l; cbn; [done|].
      repeat case_decide; subst; try done. - by intros [= ->]. - apply IH. }
    destruct (decide (n = nm)) as [->|Hne]; [by rewrite (Hfield _ _ Hl)|].
    apply IH; [|intros; apply Hall; by right]. apply elem_of_cons in Hin as [->|]; done.
  Qed.

  Lemma dget_Some_elem {V} (d : list (N * V)) k v : dget d k = Some v → (k, v) ∈ d.
  Proof.
    induction d as [|[k0 v0] d IH]; cbn; [done|]. case_decide; [intros [= ->]; subst; by left|].
    intros H'. right. by apply IH.
  Qed.

  (** ** rows of a table whose columns are picked by the same positions *)
  Definition pick_rows (v : view (N := N) (A := A)) (ixs : list nat) : view (N := N) (A := A) :=
    map (λ x, (x.1, map (λ i, default none (x.2 !! i)) ixs)) v.

  Lemma pick_rows_names v ixs : names (pick_rows v ixs) = names v.
  Proof. unfold names, pick_rows. induction v as [|[n l] v IH]; [done|]. cbn [map]. rewrite !fmap_cons. by f_equal. Qed.

  Lemma pick_rows_rows v ixs : v ≠ [] → rows none (pick_rows v ixs) = map (row none v) ixs.
  Proof.
    intros Hne. unfold rows. rewrite (nrows_rect _ (length ixs)).
    - transitivity (map (λ k, row none v (default 0%nat (ixs !! k))) (seq 0 (length ixs))).
      + apply list_fmap_ext. intros _ k [_ Hk]%elem_of_list_lookup_2%elem_of_seq. cbn in Hk.
        destruct (lookup_lt_is_Some_2 ixs k Hk) as [i Hi]. rewrite Hi.
        unfold row, pick_rows. rewrite map_map. apply map_ext. intros x. cbn [fst snd].
        change (map ?f ixs) with (f <$> ixs). rewrite list_lookup_fmap, Hi. done.
      + clear Hne. apply list_eq. intros k. change (map ?f (seq 0 (length ixs))) with (f <$> seq 0 (length ixs)).
        change (map ?f ixs) with (f <$> ixs). rewrite !list_lookup_fmap.
        destruct (decide (k < length ixs)%nat) as [Hk|Hk].
        * rewrite lookup_seq_lt by done. destruct (lookup_lt_is_Some_2 ixs k Hk) as [i Hi]. cbn. by rewrite Hi.
        * rewrite lookup_seq_ge by lia. by rewrite lookup_ge_None_2 by lia.
    - unfold rect, pick_rows. apply Forall_fmap, Forall_true. intros c. cbn. by rewrite map_length.
    - by destruct v.
  Qed.

  Lemma picked_contents b (P : nat → bool) n v w :
    rect n v → Forall2 (λ (x : N * list A) (y : N * list A),
      y.1 = x.1 ∧ y.2 = pick_bits b (map P (seq 0 n)) x.2) v w →
    w = pick_rows v (filter (λ i, eqb (P i) b = true) (seq 0 n)).
  Proof.
    intros Hr Hw. unfold pick_rows. revert Hr. induction Hw as [|[m l] [m' l'] v w [Hn Hl] Hw IH]; intros Hr; [done|].
    cbn [fst snd] in *. apply list.Forall_cons in Hr as [H1 Hr]. cbn in H1. cbn [map]. rewrite <- IH by done. f_equal.
    rewrite Hn, Hl. cbn [fst snd]. f_equal. subst n. rewrite (pick_bits_seq b none).
    apply map_ext. intros i. by rewrite Nat.sub_0_r.
  Qed.

  Section main.
    Context (cmp : fmethod → A → A → bool).
    Local Notation tbl := (list (N * column A T)).

    Notation operand := (operand none).
    Notation satisfies := (satisfies none cmp).

    Lemma add_col_elem (e : list N) (x : xvalue N A) n : n ∈ add_col e x ↔ n ∈ e ∨ x = XCol n.
    Proof.
      destruct x as [c|a]; cbn; [case_decide|]; [|rewrite elem_of_app, elem_of_list_singleton|];
        naive_solver.
    Qed.

    Lemma expr_cols_uses (xs : list (expression N A)) n : n ∈ expr_cols xs ↔ uses xs n.
    Proof.
      unfold expr_cols. transitivity (n ∈ ([] : list N) ∨ uses xs n).
      - generalize (@nil N). induction xs as [|x xs IH]; intros e; cbn [fold_left].
        + split; [by left|]. intros [?|(x & Hx & _)]; [done|]. by apply elem_of_nil in Hx.
        + rewrite IH, !add_col_elem. unfold uses. setoid_rewrite elem_of_cons. naive_solver.
      - split; [|by right]. intros [H%elem_of_nil|]; done.
    Qed.

    Lemma known_spec (t : tbl) xs :
      (∀ n, uses xs n → n ∈ t.*1) →
      forallb (λ x : expression N A, known t.*1 x.1.1 && known t.*1 x.2) xs = true.
    Proof.
      intros Hu. apply forallb_forall. intros x Hx%elem_of_list_In.
      apply andb_true_iff. split.
      - destruct (x.1.1) as [c|] eqn:E; [|done]. cbn. apply bool_decide_eq_true, Hu. exists x. by auto.
      - destruct (x.2) as [c|] eqn:E; [|done]. cbn. apply bool_decide_eq_true, Hu. exists x. by auto.
    Qed.

    Lemma omap_contents (t : tbl) (cols : list N) : map col_iter (omap (λ n, dget t n) cols) = omap (dget (contents t)) cols.
    Proof.
      induction cols as [|n cols IH]; [done|]. cbn [omap list_omap]. rewrite contents_dget.
      destruct (dget t n); cbn [fmap option_fmap option_map map]; by rewrite IH.
    Qed.

    Lemma extract_spec (v : view (N := N) (A := A)) cols i (x : xvalue N A) :
      (∀ n, n ∈ cols → n ∈ names v) → (∀ n, x = XCol n → n ∈ cols) →
      extract_value (map (at_ none i) (omap (dget v) cols)) cols x = Some (operand v i x).
    Proof. intros Hc Hx. destruct x as [n|a]; [|done]. cbn. apply find_col_spec; [by apply Hx|done]. Qed.

    Lemma check_spec (v : view (N := N) (A := A)) (xs : list (expression N A)) ft i :
      (∀ n, uses xs n → n ∈ names v) →
      check_expressions cmp (map (at_ none i) (omap (dget v) (expr_cols xs))) (expr_cols xs) xs ft = satisfies v ft xs i.
    Proof.
      intros Hu.
      assert (Hone : ∀ x, x ∈ xs → check_expression cmp (map (at_ none i) (omap (dget v) (expr_cols xs))) (expr_cols xs) x
        = cmp x.1.2 (operand v i x.1.1) (operand v i x.2)).
      { intros x Hx. unfold check_expression.
        assert (Hc : ∀ n, n ∈ expr_cols xs → n ∈ names v) by (intros n Hn%expr_cols_uses; by apply Hu).
        rewrite !extract_spec; [done|done| |done|]; intros n Hn; apply expr_cols_uses; exists x; auto. }
      unfold check_expressions, satisfies, all_of, any_of.
      generalize dependent (expr_cols xs). intros cols Hone. clear Hu.
      destruct ft; induction xs as [|x xs IH]; cbn [forallb existsb map]; try done;
        (rewrite Hone by (by left); rewrite IH; [done|]; intros; apply Hone; by right).
    Qed.

    Lemma states_contents (proj : col_state → column A T) b (P : nat → bool) n st (t : tbl) :
      (∀ s, s ∈ st → col_iter (proj s) = pick_bits b (map P (seq 0 n)) (col_iter s.2.1)) →
      map (λ s, (s.1, s.2.1)) st = t → rect n (contents t) →
      contents (map (λ s, (s.1, proj s)) st) = pick_rows (contents t) (filter (λ i, eqb (P i) b = true) (seq 0 n)).
    Proof.
      intros Hp <- Hr. apply (picked_contents b P n); [done|]. clear Hr. unfold contents. rewrite !map_map.
      induction st as [|s st IH]; [constructor|]. cbn [map]. constructor.
      - cbn [fst snd]. split; [done|]. apply Hp. by left.
      - apply IH. intros s' ?. apply Hp. by right.
    Qed.

    Theorem nim_filter_spec (t : tbl) xs ft n :
      0 < ps → rect n (contents t) →
      (∃ m, uses xs m) → (∀ m, uses xs m → m ∈ t.*1) →
      ∃ p f, nim_filter ty ps cmp t xs ft = Ok (p, f) ∧
        contents p = pick_rows (contents t) (filter (λ i, eqb (satisfies (contents t) ft xs i) true = true) (seq 0 n)) ∧
        contents f = pick_rows (contents t) (filter (λ i, eqb (satisfies (contents t) ft xs i) false = true) (seq 0 n)).
    Proof.
      intros Hps Hr [m Hm] Hu. unfold nim_filter.
      destruct xs as [|x0 xs0]; [by destruct Hm as (? & ?%elem_of_nil & _)|]. set (xs := x0 :: xs0) in *.
      destruct t as [|[n0 c0] t0]; [by apply Hu, elem_of_nil in Hm|]. set (t := (n0, c0) :: t0) in *.
      assert (Hlen : ∀ c : N * column A T, c ∈ t → length (col_iter c.2) = n).
      { intros c Hc. unfold rect, contents in Hr. rewrite Forall_fmap in Hr.
        exact (proj1 (list.Forall_forall _ _) Hr c Hc). }
      replace (forallb (λ x, col_len x.2 =? col_len c0) t) with true.
      2:{ symmetry. apply forallb_forall. intros c Hc%elem_of_list_In. rewrite !col_len_iter.
          rewrite (Hlen c) by done. rewrite (Hlen (n0, c0) ltac:(by left) : length (col_iter c0) = n). apply Z.eqb_refl. }
      rewrite known_spec by done. cbn [negb]. cbv zeta.
      assert (Hnames : ∀ k, uses xs k → k ∈ names (contents t)) by (intros k Hk; rewrite contents_names; by apply Hu).
      pose proof (omap_contents t (expr_cols xs)) as Hom.
      assert (Hf : Forall (λ l, length l = n) (omap (dget (contents t)) (expr_cols xs))).
      { apply list.Forall_forall. intros l (k & _ & Hk)%elem_of_list_omap.
        apply dget_Some_elem in Hk. exact (proj1 (list.Forall_forall _ _) Hr (k, l) Hk). }
      destruct (omap (λ n, dget t n) (expr_cols xs)) as [|e0 es] eqn:Es.
      { exfalso. destruct (dget_in t m (Hu m Hm)) as [cm Hcm].
        assert (Hin : cm ∈ omap (λ n, dget t n) (expr_cols xs))
          by (apply elem_of_list_omap; exists m; split; [by apply expr_cols_uses|done]).
        rewrite Es in Hin. by apply elem_of_nil in Hin. }
      rewrite <- Es in Hom |- *. rewrite Hom.
      assert (He0 : length (col_iter e0) = n).
      { rewrite <- Hom, Es in Hf. cbn [map] in Hf. by apply list.Forall_cons in Hf as [? _]. }
      rewrite He0, iterate_rows_spec; [| |done].
      2:{ rewrite <- Hom, Es. done. }
      set (P := satisfies (contents t) ft xs).
      destruct (filter_loop_spec n (λ row, check_expressions cmp row (expr_cols xs) xs ft)
        (map (λ i, map (at_ none i) (omap (dget (contents t)) (expr_cols xs))) (seq 0 n)) [] []
        (map (λ x, (x.1, (x.2, ([], [])))) t)) as (st & Hst & Hok & Hn); [done|cbn; lia| | |].
      { rewrite map_length, seq_length. cbn. lia. }
      { apply Forall_fmap, list.Forall_forall. intros c Hc. unfold st_ok. cbn. split; [exact (Hlen c Hc)|done]. }
      change (zlen []) with 0 in Hst. rewrite Hst. cbn [res_map]. cbn [app] in Hok.
      rewrite map_map in Hok. rewrite (map_ext _ P) in Hok by (intros i; by apply check_spec).
      rewrite map_map in Hn. cbn [fst snd] in Hn.
      assert (Hn' : map (λ s : col_state, (s.1, s.2.1)) st = t).
      { etrans; [exact Hn|]. clearbody t. clear. induction t as [|[? ?] l IH]; [done|]. cbn. by f_equal. }
      eexists _, _. split; [done|]. split.
      - apply (states_contents (λ s, s.2.2.1)); [|done|done]. intros s Hs.
        exact (proj1 (proj2 (proj1 (list.Forall_forall _ _) Hok s Hs))).
      - apply (states_contents (λ s, s.2.2.2)); [|done|done]. intros s Hs.
        exact (proj2 (proj2 (proj1 (list.Forall_forall _ _) Hok s Hs))).
    Qed.

    Lemma filter_true (P : nat → bool) (l : list nat) : filter (λ i, eqb (P i) true = true) l = filter (λ i, P i = true) l.
    Proof. apply list_filter_iff. intros i. by destruct (P i). Qed.
    Lemma filter_false (P : nat → bool) (l : list nat) : filter (λ i, eqb (P i) false = true) l = filter (λ i, negb (P i) = true) l.
    Proof. apply list_filter_iff. intros i. by destruct (P i). Qed.

    Theorem filter_spec (t : tbl) xs ft n :
      0 < ps → rect n (contents t) →
      (∃ m, uses xs m) → (∀ m, uses xs m → m ∈ t.*1) →
      ∃ p f, tbl_filter ty ps cmp t xs ft = Ok (p, f) ∧
        names (contents p) = names (contents t) ∧ names (contents f) = names (contents t) ∧
        rows none (contents p) = selected none (contents t) (satisfies (contents t) ft xs) n ∧
        rows none (contents f) = selected none (contents t) (λ i, negb (satisfies (contents t) ft xs i)) n.
    Proof.
      intros Hps Hr Hm Hu. unfold tbl_filter.
      assert (Hne : contents t ≠ []).
      { destruct Hm as [m Hm]. apply Hu in Hm. by destruct t; [apply elem_of_nil in Hm|]. }
      rewrite tbl_len_spec, (nrows_rect _ n) by done.
      destruct (Z.eqb_spec (Z.of_nat n) 0) as [Hz|Hz].
      - assert (n = 0%nat) as -> by lia. exists t, t. split_and!; try done;
          unfold selected; cbn; unfold rows; by rewrite (nrows_rect _ 0).
      - destruct (nim_filter_spec t xs ft n Hps Hr Hm Hu) as (p & f & Hpf & Hp & Hf).
        exists p, f. split; [done|]. rewrite Hp, Hf, !pick_rows_names, !pick_rows_rows by done.
        rewrite filter_true, filter_false. done.
    Qed.

    Lemma filter_unknown (t : tbl) xs ft n m :
      rect n (contents t) → (0 < n)%nat → uses xs m → m ∉ t.*1 → t ≠ [] →
      tbl_filter ty ps cmp t xs ft = Err ValueError.
    Proof.
      intros Hr Hn Hm Hnot Hne. unfold tbl_filter. rewrite tbl_len_spec, (nrows_rect _ n) by (done || by destruct t).
      destruct (Z.eqb_spec (Z.of_nat n) 0) as [Hz|Hz]; [lia|]. unfold nim_filter.
      destruct xs as [|x0 xs0]; [by destruct Hm as (? & ?%elem_of_nil & _)|]. set (xs := x0 :: xs0) in *.
      destruct t as [|[n0 c0] t0]; [done|]. set (t := (n0, c0) :: t0) in *.
      destruct (forallb (λ x, col_len x.2 =? col_len c0) t); [|done]. cbn [negb].
      destruct (forallb (λ x, known t.*1 x.1.1 && known t.*1 x.2) xs) eqn:E; [|done].
      rewrite forallb_forall in E. destruct Hm as (x & Hx & Hm). apply elem_of_list_In in Hx.
      apply E, andb_true_iff in Hx as [H1 H2]. exfalso. apply Hnot.
      destruct Hm as [Hm|Hm]; [rewrite Hm in H1; by apply bool_decide_eq_true in H1|
        rewrite Hm in H2; by apply bool_decide_eq_true in H2].
    Qed.
  End main.
End proofs.
