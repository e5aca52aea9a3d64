(** Proofs of C92. *)
From Coq Require Import String.
From Verif.Proof Require Import NamesProofs ColumnRead TableBase DictLemmas DisplayProofs.
From Verif.Spec Require Import JsonTable.
From Verif.Model Require Import JsonTable.
Local Open Scope list_scope.
Local Open Scope Z_scope.

Lemma map_res_Forall2 {A B} (f : A → res B) l r : map_res f l = Ok r ↔ Forall2 (λ x y, f x = Ok y) l r.
Proof.
  revert r. induction l as [|x l IH]; intros r; cbn [map_res].
  - split; [intros [= <-]; constructor | by intros ->%Forall2_nil_inv_l].
  - split.
    + destruct (f x) as [y|e] eqn:E; cbn; [|done]. destruct (map_res f l) as [ys|e] eqn:E2; cbn; [|done].
      intros [= <-]. constructor; [done|]. by apply IH.
    + intros (y & ys & Hy & Hys & ->)%Forall2_cons_inv_l. rewrite Hy. cbn. apply IH in Hys. by rewrite Hys.
Qed.

Lemma map_res_ok {A B} (f : A → res B) l : (∃ r, map_res f l = Ok r) ↔ Forall (λ x, ∃ y, f x = Ok y) l.
Proof.
  induction l as [|x l IH]; cbn [map_res].
  - split; [constructor|]. by exists [].
  - rewrite list.Forall_cons. split.
    + intros [r Hr]. destruct (f x) as [y|e] eqn:E; cbn in Hr; [|done]. destruct (map_res f l) as [ys|e] eqn:E2; cbn in Hr; [|done].
      split; [by eexists|]. apply IH. by eexists.
    + intros [[y Hy] [ys Hys]%IH]. rewrite Hy, Hys. cbn. by eexists.
Qed.

Lemma fold_err {A B} (g : B → A → res B) (l : list A) e :
  fold_left (λ acc x, res_bind acc (λ d, g d x)) l (Err e) = Err e.
Proof. by induction l. Qed.

Lemma fold_bind_Ok {A B} (g : B → A → res B) (l : list A) x (b : B) r :
  fold_left (λ acc x, res_bind acc (λ d, g d x)) (x :: l) (Ok b) = Ok r →
  ∃ b', g b x = Ok b' ∧ fold_left (λ acc x, res_bind acc (λ d, g d x)) l (Ok b') = Ok r.
Proof.
  cbn [fold_left res_bind]. destruct (g b x) as [b'|e]; [eauto|]. by rewrite fold_err.
Qed.

Lemma dget_NoDup_lookup {N V} `{EqDecision N} (d : list (N * V)) k v : NoDup d.*1 → (k, v) ∈ d → dget d k = Some v.
Proof. intros. by apply dget_Some. Qed.

Lemma dget_elem_pair {N V} `{EqDecision N} (d : list (N * V)) k v : dget d k = Some v → (k, v) ∈ d.
Proof.
  induction d as [|[k' v'] d IH]; cbn [dget]; [done|]. case_decide; [intros [= ->]; subst; left|].
  intros. right. by apply IH.
Qed.

Lemma Forall2_through {A B C} (R : A → B → Prop) (S : B → C → Prop) l m r :
  Forall2 R l m → Forall2 S m r → Forall2 (λ x z, ∃ y, R x y ∧ S y z) l r.
Proof.
  intros H. revert r. induction H as [|x y l m Hx _ IH]; intros r Hr.
  - apply Forall2_nil_inv_l in Hr as ->. constructor.
  - apply Forall2_cons_inv_l in Hr as (z & r' & Hz & Hr & ->). constructor; eauto.
Qed.

Lemma omap_agree {A B} (f g : A → option B) (l : list A) : (∀ x, x ∈ l → f x = g x) → omap f l = omap g l.
Proof.
  induction l as [|x l IH]; intros H; [done|]. rewrite !omap_cons, (H x) by left. rewrite IH; [done|].
  intros y Hy. apply H. by right.
Qed.

Section proofs.
  Context {T : Type} `{EqDecision T} (ty : cval → T) (ps : Z) (fshow : fval → text).
  Local Notation table := (table string cval T).

  (** the dictionary of the columns *)
  Lemma to_dict_loop (t : table) s cols : ∀ acc d, NoDup (acc.*1 ++ cols) →
    fold_left (λ acc name, res_bind acc (λ d,
        match dget t name with
        | Some c => res_map (dset d name) (col_getslice c s)
        | None => Err KeyError
        end)) cols (Ok acc) = Ok d →
    ∃ new, d = acc ++ new ∧ Forall2 (λ n e, e.1 = n ∧ ∃ c, dget t n = Some c ∧ col_getslice c s = Ok e.2) cols new.
  Proof.
    induction cols as [|n cols IH]; intros acc d Hnd Hf.
    - injection Hf as <-. exists []. by rewrite app_nil_r.
    - apply fold_bind_Ok in Hf as (b & Hb & Hf). destruct (dget t n) as [c|] eqn:Ec; [|done].
      destruct (col_getslice c s) as [vs|e] eqn:Es; cbn in Hb; [|done]. injection Hb as <-.
      assert (n ∉ acc.*1) as Hn.
      { apply list.NoDup_app in Hnd as (_ & Hd & _). intros Hin. apply (Hd n Hin). left. }
      rewrite dset_fresh in Hf by done.
      apply IH in Hf as (new & -> & Hnew).
      + exists ((n, vs) :: new). rewrite <- app_assoc. split; [done|]. constructor; [|done]. eauto.
      + by rewrite fmap_app, <- app_assoc.
  Qed.

  Lemma to_dict_loop_ok (t : table) s cols : (∀ n, n ∈ cols → ∃ c vs, dget t n = Some c ∧ col_getslice c s = Ok vs) → ∀ acc,
    ∃ d, fold_left (λ acc name, res_bind acc (λ d,
        match dget t name with
        | Some c => res_map (dset d name) (col_getslice c s)
        | None => Err KeyError
        end)) cols (Ok acc) = Ok d.
  Proof.
    induction cols as [|n cols IH]; intros Hc acc; [by eexists|].
    cbn [fold_left res_bind]. destruct (Hc n) as (c & vs & -> & ->); [left|]. cbn [res_map].
    apply IH. intros m Hm. apply Hc. by right.
  Qed.

  (** the names given, the values converted *)
  Definition convert (new : list (string * list json)) (e : string * list cval) : res (list (string * list json)) :=
    match unique_name e.1 new.*1 with
    | Some new_k => res_map (dset new new_k) (map_res (to_json fshow) e.2)
    | None => Err OtherError
    end.

  Lemma convert_loop (es : list (string * list cval)) : ∀ new d, NoDup new.*1 →
    fold_left (λ acc e, res_bind acc (λ new, convert new e)) es (Ok new) = Ok d →
    ∃ rest, d = new ++ rest ∧ NoDup d.*1 ∧ Forall2 (λ e r, map_res (to_json fshow) e.2 = Ok r.2) es rest ∧
      (NoDup (new.*1 ++ es.*1) → rest.*1 = es.*1).
  Proof.
    induction es as [|e es IH]; intros new d Hnd Hf.
    - injection Hf as <-. exists []. rewrite app_nil_r. done.
    - apply fold_bind_Ok in Hf as (b & Hb & Hf). unfold convert in Hb.
      destruct (unique_name_spec e.1 new.*1) as (k & Hk & Hfresh & Hcase). rewrite Hk in Hb.
      destruct (map_res (to_json fshow) e.2) as [js|x] eqn:Ej; cbn in Hb; [|done]. injection Hb as <-.
      rewrite dset_fresh in Hf by done.
      apply IH in Hf as (rest & -> & Hnd' & Hrest & Hnames).
      + exists ((k, js) :: rest). rewrite <- app_assoc in *. split; [done|]. split; [done|].
        split; [by constructor|]. intros Hn. cbn [fmap list_fmap]. cbn in Hn.
        assert (e.1 ∉ new.*1) as He.
        { apply list.NoDup_app in Hn as (_ & Hd & _). intros Hin. apply (Hd _ Hin). left. }
        destruct Hcase as [[_ ->]|[Hin _]]; [|done]. f_equal. apply Hnames.
        rewrite fmap_app, <- app_assoc. exact Hn.
      + rewrite fmap_app. apply list.NoDup_app. split; [done|]. split; [|apply NoDup_singleton].
        intros x Hx Hx'. apply elem_of_list_singleton in Hx'. cbn in Hx'. by subst.
  Qed.

  Lemma convert_loop_ok (es : list (string * list cval)) :
    Forall (λ e, Forall (λ v, ∃ j, to_json fshow v = Ok j) e.2) es → ∀ new,
    ∃ d, fold_left (λ acc e, res_bind acc (λ new, convert new e)) es (Ok new) = Ok d.
  Proof.
    induction 1 as [|e es He _ IH]; intros new; [by eexists|].
    cbn [fold_left res_bind]. unfold convert at 2. destruct (unique_name_spec e.1 new.*1) as (k & -> & _).
    apply map_res_ok in He as [r ->]. cbn [res_map]. apply IH.
  Qed.

  Definition counted (rc : option string) (start_on : Z) (P : list Z) : list (string * list json) :=
    match rc with Some rc => [(rc, map (λ i, JInt (i + start_on)) P)] | None => [] end.

  Lemma serial_shape (t : table) rc start_on columns s d n : NoDup (default t.*1 columns) →
    as_json_serializable fshow t rc start_on columns s = Ok (d, n) →
    n = tbl_len t ∧ ∃ es rest, to_dict t columns s = Ok es ∧
      d = counted rc start_on (slice_positions (seq 0 (nrows (contents t))) (all_rows t s)) ++ rest ∧ NoDup d.*1 ∧
      Forall2 (λ n e, e.1 = n ∧ ∃ c, dget t n = Some c ∧ col_getslice c (all_rows t s) = Ok e.2) (default t.*1 columns) es ∧
      Forall2 (λ e r, map_res (to_json fshow) e.2 = Ok r.2) es rest ∧
      ((∀ k, rc = Some k → k ∉ default t.*1 columns) → rest.*1 = default t.*1 columns).
  Proof.
    intros Hnd. unfold as_json_serializable.
    assert (slice_indices (all_rows t s) (tbl_len t) = slice_indices (all_rows t s) (zlen (seq 0 (nrows (contents t))))) as ->.
    { by rewrite seq_length, tbl_len_spec. }
    unfold slice_positions. destruct (slice_indices (all_rows t s) (zlen (seq 0 (nrows (contents t))))) as [[a b] st].
    change (match rc with Some rc0 => [(rc0, map (λ i, JInt (i + start_on)) (py_range a b st))] | None => [] end)
      with (counted rc start_on (py_range a b st)).
    destruct (to_dict t columns s) as [es|e] eqn:Ed; cbn [res_bind]; [|done].
    match goal with |- context [fold_left ?f es ?x] => change (fold_left f es x) with
      (fold_left (λ acc e, res_bind acc (λ new, convert new e)) es (Ok (counted rc start_on (py_range a b st)))) end.
    destruct (fold_left _ es _) as [new|e] eqn:Ef; cbn [res_map]; [|done]. intros [= <- <-]. split; [done|].
    unfold to_dict in Ed. apply to_dict_loop in Ed as (new' & -> & Hes); [|done]. cbn [app] in *.
    apply convert_loop in Ef as (rest & -> & Hnd' & Hrest & Hnames); [|destruct rc; [apply NoDup_singleton|constructor]].
    exists new', rest. split; [done|]. split; [done|]. split; [done|]. split; [done|]. split; [done|].
    assert (new'.*1 = default t.*1 columns) as En.
    { clear -Hes. induction Hes as [|n e l l' [H _] _ IH]; [done|]. cbn. by rewrite H, IH. }
    intros Hk. rewrite <- En. apply Hnames. rewrite En. destruct rc as [k|]; [|done]. cbn.
    apply list.NoDup_cons. split; [by apply Hk|done].
  Qed.

  Lemma znth_slice {A} (l : list A) s : sl_stepv s ≠ 0 →
    Forall2 (λ p x, znth l p = Some x) (slice_positions l s) (py_getslice l s).
  Proof.
    intros Hs. unfold py_getslice.
    assert (∀ p, p ∈ slice_positions l s → 0 <= p < zlen l) as Hr.
    { intros p Hp. apply (slice_positions_range (length l) s p Hs). unfold slice_positions in *. by rewrite seq_length. }
    revert Hr. generalize (slice_positions l s) as P. induction P as [|p P IH]; intros Hr; [constructor|].
    rewrite omap_cons. destruct (Hr p) as [H1 H2]; [left|].
    unfold znth at 2. destruct (Z.ltb_spec p 0); [lia|].
    destruct (lookup_lt_is_Some_2 l (Z.to_nat p)) as [x Hx]; [lia|]. rewrite Hx. constructor.
    - unfold znth. destruct (Z.ltb_spec p 0); [lia|]. done.
    - apply IH. intros q Hq. apply Hr. by right.
  Qed.

  Lemma getslice_ok (c : column cval T) s : 0 < sl_stepv s ∨ sl_stepv s = -1 → col_getslice c s = Ok (py_getslice (col_iter c) s).
  Proof. intros [H|H]; [by apply col_getslice_pos | by apply col_getslice_neg1]. Qed.

  (** every slice of a table whose columns are of one length: the row ids are those of the values *)
  Lemma serial_labels (t : table) rc start_on columns s d n :
    NoDup (default t.*1 columns) → rect (nrows (contents t)) (contents t) →
    0 < sl_stepv s ∨ sl_stepv s = -1 →
    as_json_serializable fshow t (Some rc) start_on columns (Some s) = Ok (d, n) →
    let P := slice_positions (seq 0 (nrows (contents t))) s in
    n = Z.of_nat (nrows (contents t)) ∧ NoDup d.*1 ∧
    ∃ rest, d = (rc, map (λ p, JInt (p + start_on)) P) :: rest ∧
      Forall2 (λ n r, ∃ col, dget (contents t) n = Some col ∧ rows_of (to_json fshow) P col r.2) (default t.*1 columns) rest ∧
      (rc ∉ default t.*1 columns → rest.*1 = default t.*1 columns).
  Proof.
    intros Hnd Hrect Hs Hj P. apply serial_shape in Hj as (-> & es & rest & _ & Hd & Hnd' & Hes & Hrest & Hnames); [|done].
    split; [apply tbl_len_spec|]. split; [done|]. exists rest. split; [exact Hd|]. split.
    - clear Hd Hnames Hnd. revert rest Hrest Hes. generalize (default t.*1 columns) as cols. intros cols rest Hrest Hes.
      revert rest Hrest. induction Hes as [|m e cols es (_ & c & Hc & Hv) _ IH]; intros rest Hrest.
      + apply Forall2_nil_inv_l in Hrest as ->. constructor.
      + apply Forall2_cons_inv_l in Hrest as (r & rest' & Hr & Hrest' & ->). constructor; [|by apply IH].
        exists (col_iter c). rewrite contents_dget, Hc. split; [done|].
        cbn [all_rows from_option default] in Hv. change (all_rows t (Some s)) with s in Hv.
        rewrite getslice_ok in Hv by done. injection Hv as Hv.
        assert (length (col_iter c) = nrows (contents t)) as Hlen.
        { unfold rect in Hrect. rewrite list.Forall_forall in Hrect. apply (Hrect (m, col_iter c)).
          apply dget_elem_pair. by rewrite contents_dget, Hc. }
        assert (P = slice_positions (col_iter c) s) as ->.
        { unfold P, slice_positions. by rewrite seq_length, Hlen. }
        apply map_res_Forall2 in Hr. rewrite <- Hv in Hr. unfold rows_of.
        assert (sl_stepv s ≠ 0) as H0 by (destruct Hs; lia).
        pose proof (znth_slice (col_iter c) s H0) as H1. clear -Hr H1.
        exact (Forall2_through _ _ _ _ _ H1 Hr).
    - intros Hrc. apply Hnames. intros k [= <-]. done.
  Qed.

  Lemma all_rows_slice (c : list cval) n : (length c <= n)%nat → py_getslice c (Slice (Some 0) (Some (Z.of_nat n)) None) = c.
  Proof.
    intros Hn. unfold py_getslice, slice_positions, slice_indices. cbn.
    destruct (Z.ltb_spec (Z.of_nat n) 0); [lia|]. replace (Z.of_nat n `min` zlen c) with (zlen c) by lia.
    replace (0 `min` zlen c) with 0 by lia. rewrite py_range_seq.
    clear. induction c as [|x c IH] using rev_ind; [done|].
    rewrite app_length, Nat.add_1_r. rewrite seq_S, map_app, omap_app. cbn [plus map]. f_equal.
    - transitivity (omap (znth c) (map Z.of_nat (seq 0 (length c)))); [|exact IH]. apply omap_agree. intros p Hp. apply elem_of_list_In, in_map_iff in Hp as (i & <- & Hi).
      apply in_seq in Hi. unfold znth. destruct (Z.ltb_spec (Z.of_nat i) 0); [lia|]. rewrite Nat2Z.id.
      by rewrite lookup_app_l by lia.
    - cbn [omap list_omap]. unfold znth. destruct (Z.ltb_spec (zlen c) 0); [lia|]. rewrite Nat2Z.id.
      by rewrite lookup_app_r, Nat.sub_diag by lia.
  Qed.

  Lemma nrows_elem (v : list (string * list cval)) c : c ∈ v → (length c.2 <= nrows v)%nat.
  Proof.
    induction v as [|c' v IH]; [by intros ?%elem_of_nil|]. change (nrows (c' :: v)) with (length c'.2 `max` nrows v)%nat.
    intros [->|H]%elem_of_cons; [lia|]. specialize (IH H). lia.
  Qed.

  Lemma all_slice (t : table) n c : dget t n = Some c → col_getslice c (all_rows t None) = Ok (col_iter c).
  Proof.
    intros Hc. rewrite getslice_ok by (left; done). f_equal. unfold all_rows. cbn [from_option default].
    rewrite tbl_len_spec. apply all_rows_slice. apply (nrows_elem _ (n, col_iter c)).
    apply dget_elem_pair. by rewrite contents_dget, Hc.
  Qed.

  Lemma to_json_serialisable v : (∃ j, to_json fshow v = Ok j) ↔ serialisable v.
  Proof. destruct v; cbn; split; try done; try (intros _; by eexists). by intros [j [=]]. Qed.

  Lemma to_json_value v j : to_json fshow v = Ok j → json_value v → value_of j = v.
  Proof. destruct v; cbn; try done; by intros [= <-]. Qed.

  Lemma Forall2_contents (t : table) (es : list (string * list cval)) : NoDup t.*1 →
    Forall2 (λ n e, e.1 = n ∧ ∃ c, dget t n = Some c ∧ col_getslice c (all_rows t None) = Ok e.2) t.*1 es → es = contents t.
  Proof.
    intros Hnd H.
    assert (Forall2 (λ n e, e.1 = n ∧ dget (contents t) n = Some e.2) t.*1 es) as H'.
    { eapply Forall2_impl; [exact H|]. intros n e (H1 & c & Hc & Hv). split; [done|].
      rewrite (all_slice t n c Hc) in Hv. injection Hv as Hv. by rewrite contents_dget, Hc, <- Hv. }
    clear H. rewrite <- contents_names in H'. rewrite <- contents_names in Hnd. revert H' Hnd.
    generalize (contents t) as v. clear t. intros v. unfold names.
    assert (∀ w, (∀ c, c ∈ w → c ∈ v) → Forall2 (λ n (e : string * list cval), e.1 = n ∧ dget v n = Some e.2) (map fst w) es →
       NoDup (map fst v) → es = w) as Hgen.
    2: { apply Hgen. done. }
    revert es. intros es w. revert es. induction w as [|[n c] w IH]; intros es Hin H Hnd.
    - by apply Forall2_nil_inv_l in H as ->.
    - apply Forall2_cons_inv_l in H as ([n' c'] & es' & [He Hd] & Hr & ->). cbn in He, Hd. subst n'.
      assert (dget v n = Some c) as Hc. { apply dget_NoDup_lookup; [done|]. apply Hin. left. }
      rewrite Hc in Hd. injection Hd as <-. f_equal. apply IH; [|done|done]. intros ??. apply Hin. by right.
  Qed.

  Lemma counted_all (t : table) :
    map (λ i, JInt (i + 1)) (slice_positions (seq 0 (nrows (contents t))) (all_rows t None))
    = map (λ i, JInt (Z.of_nat i + 1)) (seq 0 (nrows (contents t))).
  Proof.
    unfold all_rows. cbn [from_option default]. rewrite tbl_len_spec. unfold slice_positions, slice_indices. cbn.
    rewrite seq_length. destruct (Z.ltb_spec (Z.of_nat (nrows (contents t))) 0); [lia|].
    replace (0 `min` Z.of_nat (nrows (contents t))) with 0 by lia. rewrite Z.min_id, py_range_seq, map_map. done.
  Qed.

  Lemma json_roundtrip (t : table) d : 0 < ps → NoDup t.*1 → table_to_json fshow t = Ok d →
    ∃ rest, contents (table_from_json ty ps d)
        = ("row id"%string, map (λ i, CInt (Z.of_nat i + 1)) (seq 0 (nrows (contents t)))) :: rest ∧
      NoDup ("row id"%string :: rest.*1) ∧
      Forall2 (λ c r, Forall2 (λ v w, ∃ j, to_json fshow v = Ok j ∧ w = value_of j) c.2 r.2 ∧
                      (Forall json_value c.2 → r.2 = c.2)) (contents t) rest ∧
      ("row id"%string ∉ t.*1 → rest.*1 = t.*1).
  Proof.
    intros Hps Hnd Hj. destruct d as [d n]. unfold table_to_json in Hj.
    apply serial_shape in Hj as (_ & es & rest & _ & Hd & Hnd' & Hes & Hrest & Hnames); [|done].
    cbn [from_option default] in Hes, Hnames. apply Forall2_contents in Hes as ->; [|done].
    cbn [counted app] in Hd. rewrite counted_all in Hd. subst d. unfold table_from_json. cbn [fst map].
    assert (((map (λ c : string * list json, (c.1, map value_of c.2)) rest)).*1 = rest.*1) as Hfst by apply map_fst_map.
    exists (map (λ c, (c.1, map value_of c.2)) rest). rewrite Hfst. split; [|split; [exact Hnd'|split]].
    - cbn [snd]. rewrite map_map. rewrite tbl_of_columns_spec; [done|done|]. rewrite fmap_cons, Hfst. exact Hnd'.
    - clear Hnames Hnd' Hfst. induction Hrest as [|c r l rest Hr _ IH]; [constructor|]. cbn [map]. constructor; [|exact IH]. cbn [snd].
      apply map_res_Forall2 in Hr. clear IH. split.
      + induction Hr; constructor; eauto.
      + induction Hr as [|v j vs js Hv _ IH']; intros Hall; [done|]. apply list.Forall_cons in Hall as [Hv' Hall].
        cbn [map]. rewrite IH' by done. f_equal. by apply to_json_value.
    - intros Hr. apply Hnames. intros k [= <-]. done.
  Qed.

  Lemma json_ok (t : table) : NoDup t.*1 →
    (∃ d, table_to_json fshow t = Ok d) ↔ Forall (λ c, Forall serialisable c.2) (contents t).
  Proof.
    intros Hnd. split.
    - intros [[d n] Hj]. unfold table_to_json in Hj. apply serial_shape in Hj as (_ & es & rest & _ & _ & _ & Hes & Hrest & _); [|done].
      apply Forall2_contents in Hes as ->; [|done]. clear -Hrest.
      induction Hrest as [|c r l rest Hr _ IH]; constructor; [|exact IH]. apply map_res_Forall2 in Hr.
      induction Hr as [|v j vs js Hv _ IH']; constructor; [|exact IH']. apply to_json_serialisable. by eexists.
    - intros Hall. unfold table_to_json, as_json_serializable.
      destruct (slice_indices (all_rows t None) (tbl_len t)) as [[a b] st].
      destruct (to_dict_loop_ok t (all_rows t None) t.*1) with (acc := @nil (string * list cval)) as [es Hes].
      { intros n Hn. destruct (dget_in t n Hn) as [c Hc]. exists c, (col_iter c). split; [done|]. by eapply all_slice. }
      assert (to_dict t None None = Ok es) as -> by exact Hes. cbn [res_bind].
      apply to_dict_loop in Hes as (new & -> & Hes); [|done]. cbn [app]. apply Forall2_contents in Hes as ->; [|done].
      match goal with |- context [fold_left ?f (contents t) ?x] => change (fold_left f (contents t) x) with
        (fold_left (λ acc e, res_bind acc (λ new, convert new e)) (contents t) x) end.
      destruct (convert_loop_ok (contents t)) with (new := [("row id"%string, map (λ i, JInt (i + 1)) (py_range a b st))]) as [d Hd].
      { eapply list.Forall_impl; [exact Hall|]. intros c Hc. eapply list.Forall_impl; [exact Hc|]. intros v. apply to_json_serialisable. }
      rewrite Hd. cbn. by eexists.
  Qed.

  Lemma json_plain (t : table) : 0 < ps → NoDup t.*1 → "row id"%string ∉ t.*1 →
    Forall (λ c, Forall json_value c.2) (contents t) →
    ∃ d, table_to_json fshow t = Ok d ∧ contents (table_from_json ty ps d)
        = ("row id"%string, map (λ i, CInt (Z.of_nat i + 1)) (seq 0 (nrows (contents t)))) :: contents t.
  Proof.
    intros Hps Hnd Hid Hall. destruct (proj2 (json_ok t Hnd)) as [d Hd].
    { eapply list.Forall_impl; [exact Hall|]. intros c Hc. eapply list.Forall_impl; [exact Hc|]. by intros []. }
    exists d. split; [done|]. destruct (json_roundtrip t d Hps Hnd Hd) as (rest & -> & _ & Hr & Hn). f_equal.
    specialize (Hn Hid). rewrite <- contents_names in Hn. unfold names in Hn. clear Hnd Hid Hd. revert Hall Hn.
    induction Hr as [|c r l rest [_ Hc] _ IH]; intros Hall Hn; [done|]. apply list.Forall_cons in Hall as [H1 H2].
    cbn in Hn. injection Hn as Hn1 Hn2. f_equal; [|by apply IH]. specialize (Hc H1). destruct c, r; cbn in *; congruence.
  Qed.

  Lemma json_more (t : table) d : 0 < ps → NoDup t.*1 → table_to_json fshow t = Ok d → contents (table_from_json ty ps d) ≠ contents t.
  Proof.
    intros Hps Hnd Hj H. destruct (json_roundtrip t d Hps Hnd Hj) as (rest & E & _ & Hr & _).
    apply Forall2_length in Hr. rewrite H in E. apply (f_equal length) in E. cbn in E. rewrite Hr in E. lia.
  Qed.
End proofs.
