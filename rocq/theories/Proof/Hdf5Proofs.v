(** Lemmas on tables written to HDF5 files. *)
From Coq Require Import String Ascii Sorted.
From Verif.Proof Require Import CastTexts ExportProofs PyInferProofs PyKinds3 PyIso PyMoments PyGuessCases.
From Verif.Model Require Import Hdf5.
Local Open Scope list_scope.
Local Open Scope Z_scope.

Lemma iso_day_text d : python_date d → iso_day d (date_isoformat d).
Proof.
  intros [Hy [Hm Hd]]. assert (month_days (yy d) (mm d) <= 31) by (unfold month_days; repeat case_match; lia).
  exists (pad 4 (yy d)), (pad 2 (mm d)), (pad 2 (dd d)). split; [apply pad_number; simpl; lia|].
  split; [apply (pad_number 1); simpl; lia|]. split; [apply (pad_number 1); simpl; lia|]. done.
Qed.
Lemma wall_clock_text us : 0 <= us < us_per_day → wall_clock us (time_isoformat us).
Proof.
  intros B. split; [by apply time_iso_text|]. unfold time_isoformat, in_day. unfold us_per_day in B. set (s := us / 1000000).
  assert (B1 : 0 <= s / 3600 < 24) by (unfold s; Z.div_mod_to_equations; lia).
  assert (B2 : 0 <= s / 60 mod 60 < 60) by (Z.div_mod_to_equations; lia).
  assert (B3 : 0 <= s mod 60 < 60) by (Z.div_mod_to_equations; lia).
  assert (P : ∀ n, 0 <= n < 100 → number_of 2 n (pad 2 n)) by (intros; apply (pad_number 1); simpl; lia).
  destruct (P (s / 3600)) as [(_ & _ & V1) L1]; [lia|]. destruct (P (s / 60 mod 60)) as [(_ & _ & V2) L2]; [lia|].
  destruct (P (s mod 60)) as [(_ & _ & V3) L3]; [lia|].
  set (h := pad 2 (s / 3600)) in *. set (m := pad 2 (s / 60 mod 60)) in *. set (x := pad 2 (s mod 60)) in *. clearbody h m x.
  destruct h as [|h1 [|h2 [|]]]; try done. destruct m as [|m1 [|m2 [|]]]; try done. destruct x as [|x1 [|x2 [|]]]; try done.
  cbn [app take drop]. rewrite V1, V2. split; [lia|]. split; [lia|].
  rewrite take_0, V3. lia.
Qed.

Section Lib.
  Context (lib : py_lib) (law : iso_law (iso_date lib) (iso_datetime lib) (iso_time lib)).
  Notation again := (read_again (float_read lib) (float_show lib) (float_format lib)).

  Lemma py_str_plain k v w : again k v w →
    (missing (CStr (py_str lib v)) ∧ w = CNone ∧ k ≠ KStr) ∨
    ∃ s, CStr (py_str lib v) = CStr s ∧ plain_text (float_read lib) (float_format lib) k s w.
  Proof using.
    destruct v as [|b|n|x|s|d|us|d us]; cbn [read_again py_str txt].
    - intros [H ->]. left. split; [|done]. right. eexists. split; [done|]. by apply (bool_decide_unpack _).
    - intros [-> ->]. right. eexists. split; [done|]. cbn [plain_text]. destruct b; [left|right]; by vm_compute.
    - intros (-> & Hn & ->). right. eexists. split; [done|]. cbn [plain_text]. exists n.
      destruct (decide (n = 0)) as [->|Hn0].
      { split; [|split; [done|left; exists [48]; by repeat (constructor || split)]].
        exists [], [48], [], []. split; [done|]. split; [by repeat constructor|]. split; [constructor|]. split; [done|]. left. split; [by left|done]. }
      destruct (python_int_dec n) as [(H1 & H2 & H3 & _) H4]. unfold python_int. set (ds := dec _ _) in *. clearbody ds.
      destruct (Z.ltb_spec n 0); cbn [app].
      + split; [|split; [done|right; left; eexists; split; [done|by right]]].
        exists [45], ds, [], []. split; [done|]. split; [done|]. split; [constructor|]. split; [by rewrite app_nil_r|]. right. rewrite app_nil_r. split; [done|lia].
      + split; [|split; [done|left; exists ds; split; [split; [done|split; [done|lia]]|split; [done|]]]].
        * exists [], ds, [], []. split; [done|]. split; [done|]. split; [constructor|]. split; [by rewrite app_nil_r|]. left. rewrite app_nil_r. split; [by left|lia].
        * pose proof (head_bound ds H2 H1 (H4 Hn0)). destruct (Z.le_gt_cases (zlen ds) 6); [done|].
          assert (10 ^ 6 <= 10 ^ (zlen ds - 1)) by (apply Z.pow_le_mono_r; lia). lia.
    - intros (-> & -> & a & b & H1 & H2 & H3 & H4). right. eexists. split; [done|]. cbn [plain_text]. by exists a, b, x.
    - intros [(H1 & H2 & ->)|H]; [left|right; by exists s]. split; [|done]. right. by exists s.
    - intros (-> & H & ->). right. eexists. split; [done|]. cbn [plain_text]. exists d, 0, (date_isoformat d), [].
      rewrite app_nil_r. split_and!; [by apply iso_day_text|done|done|done|by left].
    - intros (-> & H & ->). right. eexists. split; [done|]. cbn [plain_text]. exists us. split; [by apply wall_clock_text|done].
    - intros (-> & H1 & H2 & ->). right. eexists. split; [done|]. cbn [plain_text]. exists d, us, (date_isoformat d), ([32] ++ time_isoformat us).
      split_and!; [by apply iso_day_text|done|done|done|]. right. exists 32, (time_isoformat us). split_and!; [done|by left|by apply wall_clock_text].
  Qed.

  Lemma again_column k vs ws : Forall2 (again k) vs ws →
    plain_column (float_read lib) (float_format lib) k (map (λ v, CStr (py_str lib v)) vs) ws.
  Proof using.
    induction 1 as [|v w vs ws H _ IH]; simpl; constructor; [|exact IH]. by apply py_str_plain.
  Qed.

  (** ** np.array of values of one kind *)
  Definition of_kind_or_none (k : kind) (w : cell) : Prop :=
    w = CNone ∨ match k, w with
      | KDateTime, CDateTime _ _ | KDate, CDate _ | KTime, CTime _ | KInt, CInt _ | KBool, CBool _ | KFloat, CFloat _ | KStr, CStr _ => True
      | _, _ => False
      end.
  Lemma plain_of_kind k vs ws : plain_column (float_read lib) (float_format lib) k vs ws → Forall (of_kind_or_none k) ws.
  Proof using.
    induction 1 as [|v w vs ws H _ IH]; constructor; [|done]. destruct H as [(_ & -> & _)|(s & _ & H)]; [by left|right].
    destruct k; cbn [plain_text] in H.
    all: try (destruct H as [[_ ->]|[_ ->]]; done).
    all: naive_solver.
  Qed.
  Lemma np_array_kept k ws : Forall (of_kind_or_none k) ws → np_array lib ws = ws.
  Proof using.
    intros H. unfold np_array. destruct (existsb is_object ws) eqn:Ho; [done|].
    assert (H' : Forall (λ w, of_kind_or_none k w ∧ is_object w = false) ws).
    { apply list.Forall_forall. intros w Hw. split; [by apply (proj1 (list.Forall_forall _ _) H)|].
      destruct (is_object w) eqn:E; [|done]. rewrite <- Ho. symmetry. apply existsb_exists. exists w. by rewrite <- elem_of_list_In. }
    clear H Ho.
    assert (M : ∀ f : cell → cell, (∀ w, of_kind_or_none k w → is_object w = false → f w = w) → map f ws = ws).
    { intros f Hf. induction H' as [|w ws [H1 H2] _ IH]; [done|]. simpl. by rewrite IH, Hf. }
    assert (E : ∀ g : cell → bool, existsb g ws = true → ∃ w, of_kind_or_none k w ∧ is_object w = false ∧ g w = true).
    { intros g (w & Hw & Hg)%existsb_exists. rewrite <- elem_of_list_In in Hw.
      destruct (proj1 (list.Forall_forall _ _) H' w Hw). by exists w. }
    destruct (existsb is_str ws) eqn:Es.
    { destruct (E _ Es) as (w & [->|H1] & H2 & H3); [done|]. destruct w; try done. destruct k; try done.
      apply M. intros v [->|Hv]; [done|]. by destruct v. }
    destruct (existsb is_float ws) eqn:Ef.
    { destruct (E _ Ef) as (w & [->|H1] & H2 & H3); [done|]. destruct w; try done. destruct k; try done.
      apply M. intros v [->|Hv]; [done|]. by destruct v. }
    destruct (existsb is_int ws) eqn:Ei; [|done].
    destruct (E _ Ei) as (w & [->|H1] & H2 & H3); [done|]. destruct w; try done. destruct k; try done.
    apply M. intros v [->|Hv]; [done|]. by destruct v.
  Qed.

  Definition column_again (c : pages) (ws : list cell) : Prop :=
    one_array c ∧ ws = concat c.*2 ∨
    ¬ one_array c ∧ ∃ k, k ≠ KNone ∧ Forall2 (again k) (concat c.*2) ws.

  Lemma array_type_one c : one_array c → ∃ k, array_type c = Some k.
  Proof using.
    intros [k H]. destruct c as [|[k' vs] c]; [by eexists|]. exists k. apply list.Forall_cons in H as [H1 H2]. simpl in H1. subst k'. simpl.
    destruct (forallb _ c) eqn:E; [done|]. exfalso. apply not_true_iff_false in E. apply E. apply forallb_forall.
    intros p Hp%elem_of_list_In. apply bool_decide_eq_true. by apply (proj1 (list.Forall_forall _ _) H2).
  Qed.
  Lemma array_type_none c : ¬ one_array c → array_type c = None.
  Proof using.
    intros H. destruct c as [|[k' vs] c]; [exfalso; apply H; exists KInt; constructor|]. simpl.
    destruct (forallb _ c) eqn:E; [|done]. destruct k' as [k|]; [|done]. exfalso. apply H. exists k. constructor; [done|].
    apply list.Forall_forall. intros p Hp%elem_of_list_In. pose proof (proj1 (forallb_forall _ _) E p Hp) as Hk.
    by apply bool_decide_eq_true in Hk.
  Qed.

  Lemma read_written c ws : column_again c ws → read_column lib (write_column lib c) = Ok ws.
  Proof using law.
    unfold write_column. intros [[[k ->]%array_type_one ->]|(->%array_type_none & k & Hk & H)]; [done|]. cbn [read_column].
    pose proof (again_column _ _ _ H) as Hp. rewrite map_map. rewrite (guess_plain lib law k _ ws Hp Hk). cbn [res_map].
    f_equal. apply (np_array_kept k). by eapply plain_of_kind.
  Qed.

  (** ** the file *)
  Lemma path_plain s part : "/"%char ∉ list_ascii_of_string s → (part ++ s)%string ≠ EmptyString → path_parts s part = [(part ++ s)%string].
  Proof using.
    revert part. induction s as [|c s IH]; intros part Hs Hne; simpl.
    - assert (E : (part ++ "")%string = part) by (clear; induction part as [|x part IHp]; [done|]; change (String x (part ++ "")%string = String x part); by rewrite IHp).
      rewrite E in *. by rewrite bool_decide_eq_false_2.
    - simpl in Hs. apply not_elem_of_cons in Hs as [Hc Hs]. destruct (Ascii.eqb_spec c "/"); [by subst|].
      assert (E : ((part ++ String c "") ++ s)%string = (part ++ String c s)%string).
      { clear. induction part as [|x part IHp]; [done|]. change (String x ((part ++ String c "") ++ s)%string = String x (part ++ String c s)%string). by rewrite IHp. }
      rewrite IH, E; [done|done|]. by rewrite E.
  Qed.
  Definition good_name (n : string) : Prop := n ≠ EmptyString ∧ "/"%char ∉ list_ascii_of_string n.
  Lemma parts_good n : good_name n → parts n = [n].
  Proof using. intros [H1 H2]. by apply (path_plain n EmptyString). Qed.

  Notation file_of t := (map (λ x : string * pages, ([x.1], write_column lib x.2)) t).
  Lemma to_hdf5_ok t0 t : NoDup (t0 ++ t).*1 → Forall good_name t.*1 → to_hdf5 lib (file_of t0) t = Ok (file_of (t0 ++ t)).
  Proof using.
    revert t0. induction t as [|[n c] t IH]; intros t0 Hnd Hg; [by rewrite app_nil_r|].
    simpl in Hg. apply list.Forall_cons in Hg as [Hn Hg]. cbn [to_hdf5]. rewrite parts_good by done. rewrite bool_decide_eq_false_2 by done.
    simpl orb. destruct (existsb _ _) eqn:He.
    - exfalso. apply existsb_exists in He as (e & He & Hs). rewrite <- elem_of_list_In in He.
      apply elem_of_list_fmap in He as ([n' c'] & -> & He). simpl in Hs.
      assert (n' = n) as ->.
      { apply orb_true_iff in Hs as [Hs|Hs]; rewrite andb_true_r in Hs; by apply bool_decide_eq_true in Hs. }
      rewrite fmap_app in Hnd. apply NoDup_app in Hnd as (_ & Hd & _). apply (Hd n); [|by left].
      apply elem_of_list_fmap. by exists (n, c').
    - change ([([n], write_column lib c)]) with (file_of [(n, c)]). rewrite <- map_app.
      rewrite IH; [by rewrite <- app_assoc| |done]. by rewrite <- app_assoc.
  Qed.

  Lemma insert_perm k l : k ∉ l → insert_key k l ≡ₚ k :: l.
  Proof using.
    induction l as [|x l IH]; intros H; simpl; [done|]. apply not_elem_of_cons in H as [H1 H2].
    rewrite bool_decide_eq_false_2 by done. destruct (String.leb k x); [done|]. rewrite IH by done. apply Permutation_swap.
  Qed.
  Lemma insert_sorted k l : Sorted (λ x y, String.leb x y = true) l → Sorted (λ x y, String.leb x y = true) (insert_key k l).
  Proof using.
    induction l as [|x l IH]; intros H; simpl; [by repeat constructor|]. case_bool_decide as E; [done|].
    destruct (String.leb k x) eqn:Hk; [constructor; [done|by constructor]|].
    assert (Hx : String.leb x k = true) by (destruct (String.leb_total x k); [done|congruence]).
    apply Sorted_inv in H as [H1 H2]. constructor; [by apply IH|]. destruct l as [|y l]; simpl; [by constructor|].
    apply HdRel_inv in H2. case_bool_decide; [by constructor|]. destruct (String.leb k y); by constructor.
  Qed.
  Lemma keys_spec t : NoDup t.*1 → keys (file_of t) ≡ₚ t.*1 ∧ Sorted (λ x y, String.leb x y = true) (keys (file_of t)).
  Proof using.
    induction t as [|[n c] t IH]; intros H; [split; [done|constructor]|]. simpl in H. apply list.NoDup_cons in H as [H1 H2].
    destruct (IH H2) as [P S]. unfold keys in *. simpl. split; [|by apply insert_sorted].
    rewrite insert_perm; [by rewrite P|]. by rewrite P.
  Qed.
  Lemma entry_spec t n c : NoDup t.*1 → (n, c) ∈ t → entry (file_of t) n = Some (write_column lib c).
  Proof using.
    intros Hnd Hin. unfold entry. induction t as [|[n' c'] t IH]; [by apply elem_of_nil in Hin|].
    simpl in Hnd. apply list.NoDup_cons in Hnd as [H1 H2]. cbn [map]. rewrite filter_cons. simpl. apply elem_of_cons in Hin as [[= <- <-]|Hin].
    - by rewrite decide_True.
    - rewrite decide_False; [by apply IH|]. intros [= ->]. apply H1. apply elem_of_list_fmap. by exists (n, c).
  Qed.
  Lemma read_keys_ok file (back : string → list cell) ns :
    (∀ n, n ∈ ns → ∃ d, entry file n = Some d ∧ read_column lib d = Ok (back n)) →
    read_keys lib file ns = Ok (map (λ n, (n, back n)) ns).
  Proof using.
    induction ns as [|n ns IH]; intros H; [done|]. simpl. destruct (H n) as (d & -> & E); [by left|]. rewrite E. simpl.
    rewrite IH; [done|]. intros x Hx. apply H. by right.
  Qed.

  Theorem hdf5_table t t1 :
    NoDup t.*1 → Forall good_name t.*1 → Forall2 (λ x y, x.1 = y.1 ∧ column_again x.2 y.2) t t1 →
    ∃ t', hdf5_again lib t = Ok t' ∧ by_name t1 t'.
  Proof using law.
    intros Hnd Hg Hall. unfold hdf5_again.
    pose proof (to_hdf5_ok [] t Hnd Hg) as E. simpl in E. rewrite E. cbn [res_bind]. unfold from_hdf5.
    destruct (keys_spec t Hnd) as [P S].
    set (back := λ n, default [] (snd <$> head (filter (λ y : string * list cell, y.1 = n) t1))).
    assert (Hn1 : t1.*1 = t.*1).
    { clear -Hall. induction Hall as [|x y t t1 [H _] _ IH]; [done|]. change (y.1 :: t1.*1 = x.1 :: t.*1). by rewrite H, IH. }
    assert (Hb : ∀ y, y ∈ t1 → back y.1 = y.2).
    { rewrite <- Hn1 in Hnd. clear -Hnd. intros y Hy. unfold back. induction t1 as [|z t1 IH]; [by apply elem_of_nil in Hy|].
      simpl in Hnd. apply list.NoDup_cons in Hnd as [H1 H2]. rewrite filter_cons. apply elem_of_cons in Hy as [->|Hy].
      - by rewrite decide_True.
      - rewrite decide_False; [by apply IH|]. intros Ez. apply H1. rewrite Ez. apply elem_of_list_fmap. by exists y. }
    rewrite (read_keys_ok _ back).
    - eexists. split; [done|]. split.
      + change (map (λ n, (n, back n)) ?l) with ((λ n, (n, back n)) <$> l). rewrite P, <- Hn1.
        rewrite <- list_fmap_compose. rewrite <- (list_fmap_id t1) at 2.
        assert (Ef : (λ n, (n, back n)) ∘ fst <$> t1 = id <$> t1); [|by rewrite Ef].
        apply list_fmap_ext. intros i y Hy%elem_of_list_lookup_2. simpl. rewrite Hb by done. by destruct y.
      + clear -S. induction S as [|n ns S IH H]; simpl; constructor; [done|]. destruct H; simpl; by constructor.
    - intros n Hn. rewrite P in Hn. apply elem_of_list_fmap in Hn as ([n' c] & -> & Hin). simpl.
      exists (write_column lib c). split; [by apply entry_spec|].
      apply elem_of_list_lookup in Hin as (i & Hi). destruct (Forall2_lookup_l _ _ _ _ _ Hall Hi) as ([n2 ws] & Hi' & Hx & Hc).
      simpl in *. subst n2. pose proof (Hb (n', ws)) as Hb'. simpl in Hb'. rewrite Hb' by (by eapply elem_of_list_lookup_2).
      by apply read_written.
  Qed.
End Lib.
