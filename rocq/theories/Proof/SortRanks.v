(** The three rank dictionaries. *)
From Verif.Spec Require Import SortOrder PySort.
From Verif.Model Require Import Sort.
From Verif.Proof Require Import DictLemmas StatsProofs TableBase SortBase.
Local Open Scope Z_scope.

(** ** rationals *)
Lemma Qccompare_of_Z x y : Qccompare (Qc_of_Z x) (Qc_of_Z y) = (x ?= y).
Proof. unfold Qccompare. simpl. apply Qcompare_inject || (unfold Qcompare; simpl; by rewrite !Z.mul_1_r). Qed.

Lemma Qccompare_ratio x y d : 0 < d → Qccompare (ratio x d) (ratio y d) = (x ?= y).
Proof.
  intros Hd. rewrite <-Qccompare_of_Z.
  assert (Hpos : (0 < / Qc_of_Z d)%Qc).
  { apply Qclt_alt. unfold Qccompare. simpl. unfold Qinv. simpl. destruct d; try lia. simpl. done. }
  unfold ratio, Qcdiv.
  destruct (Qccompare (Qc_of_Z x) (Qc_of_Z y)) eqn:E.
  - apply Qceq_alt in E. rewrite E. by apply Qceq_alt.
  - apply Qclt_alt. apply Qcmult_lt_compat_r; [done|]. by apply Qclt_alt.
  - apply Qcgt_alt. apply Qcmult_lt_compat_r; [done|]. by apply Qcgt_alt.
Qed.

Lemma ratio_mul k d : 0 < d → ratio (k * d) d = Qc_of_Z k.
Proof.
  intros Hd. unfold ratio. rewrite Z2Qc_inj_mul. unfold Qcdiv. rewrite <-Qcmult_assoc, Qcmult_inv_r.
  - apply Qcmult_1_r.
  - rewrite <-Z2Qc_inj_0, Z2Qc_inj_iff. lia.
Qed.
Lemma ratio_add x y d : ratio (x + y) d = (ratio x d + ratio y d)%Qc.
Proof. unfold ratio. rewrite Z2Qc_inj_add. unfold Qcdiv. apply Qcmult_plus_distr_l. Qed.
Lemma ratio_scale x d k : 0 < d → 0 < k → ratio (x * k) (d * k) = ratio x d.
Proof.
  intros Hd Hk. unfold ratio. rewrite !Z2Qc_inj_mul. unfold Qcdiv.
  assert (Qc_of_Z d ≠ 0%Qc) by (rewrite <-Z2Qc_inj_0, Z2Qc_inj_iff; lia).
  assert (Qc_of_Z k ≠ 0%Qc) by (rewrite <-Z2Qc_inj_0, Z2Qc_inj_iff; lia).
  field. done.
Qed.

Lemma days_code_spec us : days_code us = Fin (ratio (us / 1000000) 86400).
Proof.
  unfold days_code, td_days, td_seconds. f_equal.
  rewrite <-(ratio_mul (us / day_us) 86400) by lia. rewrite <-ratio_add. f_equal.
  unfold day_us. Z.div_mod_to_equations. nia.
Qed.

Lemma floor_then_cmp x y k : 0 < k → thenc (x / k ?= y / k) (x ?= y) = (x ?= y).
Proof.
  intros Hk. destruct (Z.compare_spec (x / k) (y / k)) as [E|E|E]; simpl; [done| |]; symmetry.
  - apply Z.compare_lt_iff. destruct (decide (y <= x)) as [Hle|]; [|lia].
    pose proof (Z.div_le_mono y x k Hk Hle). lia.
  - apply Z.compare_gt_iff. destruct (decide (x <= y)) as [Hle|]; [|lia].
    pose proof (Z.div_le_mono x y k Hk Hle). lia.
Qed.
Lemma thenc_same c : thenc c c = c.
Proof. by destruct c. Qed.

Section ranks.
  Context (coll : string → list Z) (pystr : pyval → string).
  Notation unix_cmp := (unix_cmp coll).
  Notation excel_cmp := (excel_cmp coll).

  (** ** the reference orders are orders *)
  Definition coll_of (v : pyval) : list Z := match v with VStr s => coll s | _ => [] end.
  Definition z_of (v : pyval) : Z :=
    match v with VTime x | VDate x | VDatetime x | VDelta x => x | _ => 0 end.
  Definition q_of (v : pyval) : Qc := default (Qc_of_Z 0) (number v).

  Lemma unix_cmp_ok : cmp_ok unix_cmp.
  Proof using Type.
    assert (Heq : ∀ a b, unix_cmp a b = thenc (Nat.compare (unix_class a) (unix_class b))
      (thenc (list_cmp (coll_of a) (coll_of b)) (thenc (z_of a ?= z_of b) (Qccompare (q_of a) (q_of b))))).
    { intros a b. unfold SortOrder.unix_cmp, natural_cmp, coll_of, z_of, q_of.
      destruct a, b; cbn [unix_class Nat.compare thenc list_cmp number default]; rewrite ?Z.compare_refl;
        cbn [thenc]; try done.
      all: try (by rewrite (cmp_refl _ Qccmp_ok); destruct (_ ?= _)).
      all: try (by rewrite (cmp_refl _ Qccmp_ok); destruct (list_cmp _ _)).
      }
    pose proof (cmp_then _ _ (cmp_map _ Ncmp_ok unix_class) (cmp_then _ _ (cmp_map _ listcmp_ok coll_of)
      (cmp_then _ _ (cmp_map _ Zcmp_ok z_of) (cmp_map _ Qccmp_ok q_of)))) as [H1 H2 H3].
    split; intros *; rewrite !Heq; [apply H1|apply H2|apply H3].
  Qed.
  Lemma excel_cmp_ok : cmp_ok excel_cmp.
  Proof using Type.
    assert (Heq : ∀ a b, excel_cmp a b = thenc (Nat.compare (excel_class a) (excel_class b))
      (thenc (list_cmp (coll_of a) (coll_of b)) (Qccompare (serial a) (serial b)))).
    { intros a b. unfold SortOrder.excel_cmp, coll_of.
      destruct a, b; cbn [excel_class Nat.compare thenc list_cmp]; try done.
      cbn [serial]. rewrite (cmp_refl _ Qccmp_ok). by destruct (list_cmp _ _). }
    pose proof (cmp_then _ _ (cmp_map _ Ncmp_ok excel_class) (cmp_then _ _ (cmp_map _ listcmp_ok coll_of)
      (cmp_map _ Qccmp_ok serial))) as [H1 H2 H3].
    split; intros *; rewrite !Heq; [apply H1|apply H2|apply H3].
  Qed.
  Lemma mode_cmp_ok m : cmp_ok (mode_cmp coll pystr m).
  Proof using Type.
    destruct m; simpl; [|apply unix_cmp_ok|apply excel_cmp_ok].
    exact (cmp_map _ listcmp_ok (λ v, coll (pystr v))).
  Qed.

  (** ** tuples *)
  Definition utup (v : pyval) : tup := (unix_class v, unix_vc v, v).
  Definition etup (v : pyval) : tup := (excel_class v, excel_vc v, v).

  Lemma unix_tup a b :
    is_text a = false → is_text b = false → is_bytes a = false → is_bytes b = false →
    tup_cmp (utup a) (utup b) = unix_cmp a b.
  Proof using Type.
    intros Ha Hb Ha' Hb'. unfold tup_cmp, utup, SortOrder.unix_cmp. cbn [fst snd].
    destruct a, b; try done; cbn [unix_class Nat.compare thenc unix_vc vcode_cmp val_cmp natural_cmp number default];
      rewrite ?thenc_same; try done.
    - rewrite Qccompare_ratio by done. apply thenc_same.
    - rewrite !days_code_spec. cbn [vcode_cmp]. rewrite Qccompare_ratio by lia.
      replace (d * day_us / 1000000) with (d * 86400).
      2:{ unfold day_us. rewrite Z.mul_assoc. by rewrite Z.div_mul. }
      replace (d0 * day_us / 1000000) with (d0 * 86400).
      2:{ unfold day_us. rewrite Z.mul_assoc. by rewrite Z.div_mul. }
      rewrite <-(Zmult_compare_compat_r d d0 86400) by lia. apply thenc_same.
    - rewrite !days_code_spec. cbn [vcode_cmp]. rewrite Qccompare_ratio by lia. by apply floor_then_cmp.
    - rewrite !days_code_spec. cbn [vcode_cmp]. rewrite Qccompare_ratio by lia. by apply floor_then_cmp.
  Qed.

  Lemma unix_tied a b :
    is_text a = false → is_text b = false → is_bytes a = false → is_bytes b = false →
    tup_tied (utup a) (utup b) && negb (bool_decide (is_Some (val_cmp a b))) = false.
  Proof using Type.
    intros Ha Hb Ha' Hb'. apply andb_false_iff. unfold tup_tied, utup. cbn [fst snd].
    destruct a, b; try done; try (by left); right; apply negb_false_iff, bool_decide_eq_true; by eexists.
  Qed.

  (** the excel value code of a value with whole seconds is its serial number *)
  Lemma serial_code v :
    is_text v = false → is_bytes v = false → v ≠ VNone → whole_seconds v → excel_vc v = Fin (serial v).
  Proof using Type.
    intros Ht Hb Hn Hw. destruct v as [| | | | | |us|d|us|us]; try done; cbn [excel_vc serial]; simpl in Hw.
    - rewrite days_code_spec. f_equal. unfold day_us.
      rewrite Z.mul_assoc, Z.div_mul by done. by rewrite ratio_mul.
    - rewrite days_code_spec. f_equal. unfold day_us.
      rewrite <-(ratio_scale _ 86400 1000000) by lia. f_equal.
      replace (25567 * (86400 * 1000000)) with (25567 * 86400 * 1000000) by lia.
      rewrite Z.div_add by done.
      Z.div_mod_to_equations. nia.
    - rewrite days_code_spec. f_equal. unfold day_us.
      rewrite <-(ratio_scale _ 86400 1000000) by lia. f_equal.
      Z.div_mod_to_equations. nia.
  Qed.

  Lemma excel_tup a b :
    is_text a = false → is_text b = false → is_bytes a = false → is_bytes b = false →
    (excel_class a = 0%nat → excel_class b = 0%nat →
      same_kind a b = true ∨ whole_seconds a ∧ whole_seconds b ∧ serial a ≠ serial b) →
    tup_cmp (etup a) (etup b) = excel_cmp a b ∧
    tup_tied (etup a) (etup b) && negb (bool_decide (is_Some (val_cmp a b))) = false.
  Proof using Type.
    intros Ha Hb Ha' Hb' Hk. unfold tup_cmp, tup_tied, etup, SortOrder.excel_cmp. cbn [fst snd].
    destruct (Nat.compare_spec (excel_class a) (excel_class b)) as [E|E|E]; simpl; [|done|done].
    destruct (decide (same_kind a b = true)) as [Hs|Hs].
    { split.
      - destruct a, b; try done;
          cbn [excel_vc vcode_cmp val_cmp number default serial]; rewrite ?thenc_same; try done.
        + rewrite Qccompare_ratio by done. apply thenc_same.
        + rewrite !days_code_spec. cbn [vcode_cmp]. rewrite Qccompare_ratio by lia.
          replace ((d + 25567) * day_us / 1000000) with ((d + 25567) * 86400).
          2:{ unfold day_us. rewrite Z.mul_assoc. by rewrite Z.div_mul. }
          replace ((d0 + 25567) * day_us / 1000000) with ((d0 + 25567) * 86400).
          2:{ unfold day_us. rewrite Z.mul_assoc. by rewrite Z.div_mul. }
          rewrite <-(Zmult_compare_compat_r (d + 25567) (d0 + 25567) 86400) by lia.
          rewrite Qccompare_of_Z. rewrite !(Z.add_comm _ 25567), Zcompare_plus_compat. apply thenc_same.
        + rewrite !days_code_spec. cbn [vcode_cmp]. rewrite !Qccompare_ratio by done.
          rewrite <-(Zcompare_plus_compat us us0 (25567 * day_us)), !(Z.add_comm (25567 * day_us)).
          by apply floor_then_cmp.
        + rewrite !days_code_spec. cbn [vcode_cmp]. rewrite !Qccompare_ratio by done. by apply floor_then_cmp.
      - apply andb_false_iff. right. apply negb_false_iff, bool_decide_eq_true.
        destruct a, b; try done; by eexists. }
    destruct (decide (excel_class a = 0%nat)) as [H0|H0].
    - destruct Hk as [?|(Hwa & Hwb & Hne)]; [done|congruence|done|].
      rewrite (serial_code a), (serial_code b) by (try done; intros ->; simpl in *; congruence). cbn [vcode_cmp].
      assert (Qccompare (serial a) (serial b) ≠ Eq) as Hc by (intros ?%Qceq_alt; done).
      match goal with |- _ = ?m ∧ _ => assert (m = Qccompare (serial a) (serial b)) as -> by (by destruct a) end.
      revert Hc. by destruct (Qccompare (serial a) (serial b)).
    - exfalso. apply Hs. by destruct a, b.
  Qed.

  (** ** sorting the tuples is sorting the values *)
  Lemma mapM_tups tc cls vc (l : list pyval) :
    (∀ v, v ∈ l → tc v = Some (cls v)) →
    mapM (λ v, TC ← tc v; Some (TC, vc v, v)) l = Some (map (λ v, (cls v, vc v, v)) l : list tup).
  Proof using Type.
    induction l as [|v l IH]; intros H; [done|]. simpl. rewrite H by (by left). simpl.
    rewrite IH; [done|]. intros. apply H. by right.
  Qed.

  Lemma sort_tuples_map (cls : pyval → nat) vc cmp rev (l : list pyval) :
    let mk := λ v, (cls v, vc v, v) in
    (∀ a b, a ∈ l → b ∈ l → tup_cmp (mk a) (mk b) = cmp a b ∧
      tup_tied (mk a) (mk b) && negb (bool_decide (is_Some (val_cmp a b))) = false) →
    sort_tuples rev (map mk l) = Ok (map mk (py_sort (leb_of (dir_cmp rev cmp)) l)).
  Proof using Type.
    intros mk H. unfold sort_tuples. match goal with |- (if ?e then _ else _) = _ => destruct e eqn:He end; [exfalso; revert He|].
    2:{ f_equal. apply py_sort_map. intros x y Hx Hy. unfold leb_of, dir_cmp. by rewrite (proj1 (H x y Hx Hy)). }
    intros (p & Hp & Hq)%existsb_exists. apply existsb_exists in Hq as (q & Hq & Ht).
      apply in_map_iff in Hp as (a & <- & Ha%elem_of_list_In). apply in_map_iff in Hq as (b & <- & Hb%elem_of_list_In).
      assert (true = false); [|done]. rewrite <-Ht. exact (proj2 (H a b Ha Hb)).
  Qed.
  Lemma map_snd_mk {X Y} (mk : X → Y * X) l : (∀ a, (mk a).2 = a) → (map mk l).*2 = l.
  Proof using Type. intros H. induction l as [|x l IH]; [done|]. cbn [map]. by rewrite fmap_cons, H, IH. Qed.

  Notation S_ cmp rev := (py_sort (leb_of (dir_cmp rev cmp))).

  Lemma sort_text_cmp (cmp : pyval → pyval → comparison) rev l :
    (∀ v, v ∈ l → is_text v = true) →
    (∀ s t, cmp (VStr s) (VStr t) = list_cmp (coll s) (coll t)) →
    sort_text coll the_text rev l = S_ cmp rev l.
  Proof using Type.
    intros Hl Hc. unfold sort_text. apply py_sort_ext. intros x y Hx%Hl Hy%Hl.
    unfold leb_of, dir_cmp. destruct x, y; try done. simpl. by rewrite Hc.
  Qed.

  Lemma elem_of_Lfilter {X} (f : X → bool) (l : list X) x : x ∈ List.filter f l ↔ x ∈ l ∧ f x = true.
  Proof using Type. rewrite !elem_of_list_In. apply filter_In. Qed.

  Lemma unix_sort_L values rev :
    (∀ a, a ∈ values → is_bytes a = false) →
    unix_sort coll values rev = Ok (enum_dict id (S_ unix_cmp rev (List.filter (λ v, negb (is_text v)) values)
      ++ S_ unix_cmp rev (List.filter is_text values))).
  Proof using Type.
    intros Hb. unfold unix_sort.
    assert (Hn : ∀ v, v ∈ List.filter (λ v, negb (is_text v)) values → is_text v = false ∧ is_bytes v = false).
    { intros v [Hv Ht]%elem_of_Lfilter. split; [by apply negb_true_iff|by apply Hb]. }
    rewrite (mapM_tups unix_tc unix_class).
    2:{ intros v [Ht Hbv]%Hn. by destruct v. }
    rewrite (sort_tuples_map unix_class unix_vc unix_cmp).
    2:{ intros a b [Ha Ha']%Hn [Hc Hc']%Hn. split; [by apply unix_tup|by apply unix_tied]. }
    cbn [res_bind]. rewrite map_snd_mk by done. rewrite (sort_text_cmp unix_cmp); [done| |done].
    by intros v [_ ?]%elem_of_Lfilter.
  Qed.

  Lemma sorted_ltor {X} (cmp : X → X → comparison) rev (l : list X) :
    cmp_ok cmp → StronglySorted (λ a b, dir_cmp rev cmp a b ≠ Gt) (S_ cmp rev l).
  Proof using Type. intros H. apply cmp_sorted. by apply cmp_dir. Qed.

  Lemma dir_cmp_Eq {X} (cmp : X → X → comparison) rev a b : dir_cmp rev cmp a b = Eq ↔ cmp a b = Eq.
  Proof using Type. unfold dir_cmp. destruct rev, (cmp a b); done. Qed.

  Lemma unix_rank_spec rev vals :
    sortable coll pystr Unix rev vals →
    ∃ d, unix_sort coll vals rev = Ok d ∧ ∀ a b, a ∈ vals → b ∈ vals →
      ∃ ra rb, dget d a = Some ra ∧ dget d b = Some rb ∧ (ra ?= rb) = dir_cmp rev unix_cmp a b.
  Proof using Type.
    intros (Hb & Heq & Hrev). rewrite unix_sort_L by done. eexists. split; [done|].
    set (L := S_ unix_cmp rev (List.filter (λ v, negb (is_text v)) vals) ++ _).
    assert (HL : ∀ a, a ∈ L ↔ a ∈ vals).
    { intros a. unfold L. rewrite elem_of_app, !py_sort_perm, !elem_of_Lfilter. destruct (is_text a); naive_solver. }
    intros a b Ha Hb'.
    apply (enum_dict_rank id (dir_cmp rev unix_cmp) L); [apply cmp_dir, unix_cmp_ok| | |by apply HL|by apply HL].
    - apply sorted_app; [apply sorted_ltor, unix_cmp_ok|apply sorted_ltor, unix_cmp_ok|].
      intros x y. rewrite !py_sort_perm, !elem_of_Lfilter. intros [Hx Hxt] [Hy Hyt].
      apply negb_true_iff in Hxt. unfold dir_cmp. destruct rev.
      + rewrite (Hrev eq_refl x y) in Hxt by done. congruence.
      + pose proof (Hb x Hx). destruct x, y; try done.
    - intros x y Hx%HL Hy%HL. rewrite dir_cmp_Eq. unfold id. split; [by apply Heq|].
      intros ->. apply (cmp_refl _ unix_cmp_ok).
  Qed.

  (** ** C44: the ranks of the unix mode *)
  Lemma unix_rank_inj rev vals :
    (∀ a, a ∈ vals → is_bytes a = false) →
    ∃ d, unix_sort coll vals rev = Ok d ∧
      (∀ a, a ∈ vals → ∃ r, dget d a = Some r ∧ 0 <= r < zlen vals) ∧
      (∀ a b r, dget d a = Some r → dget d b = Some r → a = b) ∧
      (∀ a, a ∉ vals → dget d a = None).
  Proof using Type.
    intros Hb. rewrite unix_sort_L by done. eexists. split; [done|].
    set (L := S_ unix_cmp rev (List.filter (λ v, negb (is_text v)) vals) ++ _).
    assert (HL : L ≡ₚ vals).
    { unfold L. rewrite !py_sort_perm. clear. induction vals as [|v l IH]; [done|]. simpl.
      destruct (is_text v); simpl; [|by rewrite IH]. rewrite <-Permutation_middle. by rewrite IH. }
    assert (Hnone : ∀ a, a ∉ vals → dget (enum_dict id L) a = None).
    { intros a Ha. apply enum_dict_None. rewrite map_id. by rewrite HL. }
    split; [|split].
    - intros a Ha. destruct (enum_dict_get id L a) as (i & b & Hi & Hl & _); [by rewrite HL|].
      exists (Z.of_nat i). split; [exact Hi|]. apply lookup_lt_Some in Hl. rewrite <-(Permutation_length HL). lia.
    - intros a b r Ha Hb'.
      assert (Hin : ∀ x, dget (enum_dict id L) x = Some r → ∃ i, L !! i = Some x ∧ r = Z.of_nat i).
      { intros x Hx. destruct (decide (x ∈ vals)) as [Hv|Hv]; [|by rewrite Hnone in Hx].
        destruct (enum_dict_get id L x) as (i & y & Hi & Hl & Hk & _); [by rewrite HL|].
        change (dget (enum_dict id L) x = Some (Z.of_nat i)) in Hi. change (y = x) in Hk. exists i. subst y. split; [done|]. congruence. }
      apply Hin in Ha as (i & Ha & ->). apply Hin in Hb' as (j & Hb' & E). assert (i = j) as -> by lia. congruence.
    - done.
  Qed.

  Lemma unix_bytes rev vals : (∃ a, a ∈ vals ∧ is_bytes a = true) → unix_sort coll vals rev = Err KeyError.
  Proof using Type.
    intros (a & Ha & Hb). unfold unix_sort.
    assert (Hn : mapM (λ v, TC ← unix_tc v; Some (TC, unix_vc v, v)) (List.filter (λ v, negb (is_text v)) vals) = None).
    { induction vals as [|v l IH]; [by apply elem_of_nil in Ha|]. apply elem_of_cons in Ha as [->|Ha].
      - destruct v; try done.
      - specialize (IH Ha). simpl. destruct (is_text v); simpl; [done|]. rewrite IH.
        by destruct (unix_tc v). }
    by rewrite Hn.
  Qed.

  (** ** excel *)
  Lemma filter_map_comm {X Y} (f : X → Y) (p : Y → bool) l : List.filter p (map f l) = map f (List.filter (λ x, p (f x)) l).
  Proof using Type. induction l as [|x l IH]; [done|]. simpl. rewrite IH. by destruct (p (f x)). Qed.

  Definition e_num (v : pyval) : bool := Nat.eqb (excel_class v) 0.
  Definition e_text (v : pyval) : bool := Nat.eqb (excel_class v) 1.
  Definition e_rest (v : pyval) : bool := Nat.leb 2 (excel_class v).

  Definition excel_L rev vals : list pyval :=
    let B f := S_ excel_cmp rev (List.filter f vals) in
    if rev then B e_rest ++ B e_text ++ B e_num else B e_num ++ B e_text ++ B e_rest.

  Lemma excel_sort_L vals rev :
    sortable coll pystr Excel rev vals →
    excel_sort coll vals rev = Ok (enum_dict eq_class (excel_L rev vals)).
  Proof using Type.
    intros (Hb & Hp). unfold excel_sort.
    rewrite (mapM_tups excel_tc excel_class).
    2:{ intros v Hv%Hb. by destruct v. }
    rewrite !filter_map_comm. cbn [fst].
    rewrite (sort_tuples_map excel_class excel_vc excel_cmp).
    2:{ intros a b [Ha Ha0]%elem_of_Lfilter [Hc Hc0]%elem_of_Lfilter. apply excel_tup; [..|apply Hp; done].
        all: try (by apply Hb). all: [> by destruct a | by destruct b]. }
    cbn [res_bind].
    rewrite (sort_tuples_map excel_class excel_vc excel_cmp).
    2:{ intros a b [Ha Ha0]%elem_of_Lfilter [Hc Hc0]%elem_of_Lfilter. apply excel_tup; [..|apply Hp; done].
        all: try (by apply Hb). all: [> by destruct a | by destruct b]. }
    cbn [res_bind]. rewrite !map_snd_mk by done. rewrite (sort_text_cmp excel_cmp); [| |done].
    2:{ intros v [_ ?]%elem_of_Lfilter. by destruct v. }
    unfold excel_L. by destruct rev.
  Qed.

  Lemma excel_L_elem rev vals a : a ∈ excel_L rev vals ↔ a ∈ vals.
  Proof using Type.
    unfold excel_L. cbv zeta.
    assert (Hc : e_num a = true ∨ e_text a = true ∨ e_rest a = true) by (destruct a; auto).
    destruct rev; rewrite !elem_of_app, !py_sort_perm, !elem_of_Lfilter; clear pystr; tauto.
  Qed.

  Lemma excel_class_Gt a b : (excel_class a < excel_class b)%nat → excel_cmp a b = Lt.
  Proof using Type. intros H. unfold SortOrder.excel_cmp. by apply Nat.compare_lt_iff in H as ->. Qed.

  Lemma excel_L_sorted rev vals : StronglySorted (λ a b, dir_cmp rev excel_cmp a b ≠ Gt) (excel_L rev vals).
  Proof using Type.
    assert (HS : ∀ f, StronglySorted (λ a b, dir_cmp rev excel_cmp a b ≠ Gt) (S_ excel_cmp rev (List.filter f vals)))
      by (intros; apply sorted_ltor, excel_cmp_ok).
    assert (Hlt : ∀ a b, (excel_class a < excel_class b)%nat → excel_cmp a b = Lt ∧ excel_cmp b a = Gt).
    { intros a b H%excel_class_Gt. split; [done|]. by rewrite (cmp_opp _ excel_cmp_ok a b), H. }
    unfold excel_L, e_num, e_text, e_rest. cbv zeta. destruct rev.
    - apply sorted_app; [apply HS|apply sorted_app; [apply HS|apply HS|]|].
      + intros x y. unfold dir_cmp. rewrite !py_sort_perm, !elem_of_Lfilter, !Nat.eqb_eq. intros [_ Hx] [_ Hy].
        destruct (Hlt y x) as [_ ->]; [lia|done].
      + intros x y. unfold dir_cmp. rewrite elem_of_app, !py_sort_perm, !elem_of_Lfilter, !Nat.eqb_eq, Nat.leb_le.
        intros [_ Hx] Hy. destruct (Hlt y x) as [_ ->]; [destruct Hy as [[_ Hy]|[_ Hy]]; lia|done].
    - apply sorted_app; [apply HS|apply sorted_app; [apply HS|apply HS|]|].
      + intros x y. unfold dir_cmp. rewrite !py_sort_perm, !elem_of_Lfilter, Nat.eqb_eq, Nat.leb_le. intros [_ Hx] [_ Hy].
        destruct (Hlt x y) as [-> _]; [lia|done].
      + intros x y. unfold dir_cmp. rewrite elem_of_app, !py_sort_perm, !elem_of_Lfilter, !Nat.eqb_eq, Nat.leb_le.
        intros [_ Hx] Hy. destruct (Hlt x y) as [-> _]; [destruct Hy as [[_ Hy]|[_ Hy]]; lia|done].
  Qed.

  Lemma ratio_inj x y d : 0 < d → ratio x d = ratio y d → x = y.
  Proof using Type.
    intros Hd H. apply Z.compare_eq_iff. rewrite <-(Qccompare_ratio x y d Hd). by apply Qceq_alt.
  Qed.

  Lemma excel_Eq_class rev vals a b :
    sortable coll pystr Excel rev vals → a ∈ vals → b ∈ vals → excel_cmp a b = Eq ↔ eq_class a = eq_class b.
  Proof using Type.
    intros (Hb & Hp) Ha Hb'. pose proof (Hb a Ha) as Hna. pose proof (Hb b Hb') as Hnb.
    destruct (Hp a b Ha Hb') as (Hbool & Htext & Hkind). split.
    - intros E. destruct (decide (is_text a = true ∧ is_text b = true)) as [[Hta Htb]|Hnt].
      { by rewrite (Htext Hta Htb E). }
      unfold SortOrder.excel_cmp in E.
      destruct (Nat.compare_spec (excel_class a) (excel_class b)) as [Ec|Ec|Ec]; simpl in E; [|done|done].
      assert (Hse : serial a = serial b).
      { apply Qceq_alt. destruct a, b; try done. }
      destruct (decide (excel_class a = 0%nat)) as [H0|H0].
      + destruct Hkind as [Hk|(_ & _ & Hne)]; [done|congruence| |done].
        destruct a, b; try done; simpl in Hse; unfold eq_class; simpl; try (by rewrite Hse).
        * by apply ratio_inj in Hse as ->.
        * apply Z2Qc_inj in Hse. f_equal. lia.
        * apply ratio_inj in Hse; [|done]. f_equal. lia.
        * by apply ratio_inj in Hse as ->.
      + destruct a, b; try done; simpl in Hse; unfold eq_class; simpl; try (by rewrite Hse). by destruct Hnt.
    - intros E. specialize (Hbool E). unfold SortOrder.excel_cmp.
      destruct a, b; try done; unfold eq_class in E; simpl in E; simplify_eq; simpl;
        try (by apply Qceq_alt); try (apply (cmp_refl _ listcmp_ok)); try apply (cmp_refl _ Qccmp_ok).
      all: apply Qceq_alt; congruence.
  Qed.

  Lemma excel_rank_spec rev vals :
    sortable coll pystr Excel rev vals →
    ∃ d, excel_sort coll vals rev = Ok d ∧ ∀ a b, a ∈ vals → b ∈ vals →
      ∃ ra rb, dget d (eq_class a) = Some ra ∧ dget d (eq_class b) = Some rb ∧ (ra ?= rb) = dir_cmp rev excel_cmp a b.
  Proof using Type.
    intros Hs. rewrite excel_sort_L by done. eexists. split; [done|]. intros a b Ha Hb.
    apply (enum_dict_rank eq_class (dir_cmp rev excel_cmp) (excel_L rev vals)).
    - apply cmp_dir, excel_cmp_ok.
    - apply excel_L_sorted.
    - intros x y Hx%excel_L_elem Hy%excel_L_elem. rewrite dir_cmp_Eq. by eapply excel_Eq_class.
    - by apply excel_L_elem.
    - by apply excel_L_elem.
  Qed.

  (** ** text *)
  Lemma text_dict (vals : list pyval) (d : list (string * pyval)) :
    NoDup (map pystr vals) → (∀ v, v ∈ vals → pystr v ∉ d.*1) →
    fold_left (λ d v, dset d (pystr v) v) vals d = d ++ map (λ v, (pystr v, v)) vals.
  Proof using Type.
    revert d. induction vals as [|v l IH]; intros d Hnd Hd; [by rewrite app_nil_r|].
    cbn [fold_left map] in *. apply list.NoDup_cons in Hnd as [Hv Hnd].
    rewrite dset_fresh by (apply Hd; by left). rewrite IH; [by rewrite <-app_assoc|done|].
    intros w Hw. rewrite fmap_app, elem_of_app. intros [Hin|Hin].
    - by apply (Hd w); [by right|].
    - apply elem_of_list_singleton in Hin. simpl in Hin. apply Hv. rewrite <-Hin.
      apply elem_of_list_In, in_map, elem_of_list_In. done.
  Qed.

  Lemma NoDup_map_on {X Y} (f : X → Y) (l : list X) :
    (∀ a b, a ∈ l → b ∈ l → f a = f b → a = b) → NoDup l → NoDup (map f l).
  Proof using Type.
    intros H. induction 1 as [|x l Hx Hl IH]; [constructor|]. simpl. apply list.NoDup_cons. split.
    - rewrite elem_of_list_In. intros (y & E & Hy%elem_of_list_In)%in_map_iff. apply Hx.
      rewrite (H x y); [done|by left|by right|done].
    - apply IH. intros. apply H; [by right|by right|done].
  Qed.

  Lemma enum_dict_map {X Y K} `{EqDecision K} (f : X → Y) (key : Y → K) (L : list X) (s : Z) d :
    fold_left (λ d p, dset d (key p.2) p.1) (zip (seqZ s (zlen (map f L))) (map f L)) d
    = fold_left (λ d p, dset d (key (f p.2)) p.1) (zip (seqZ s (zlen L)) L) d.
  Proof using Type.
    rewrite map_length. revert s d. induction L as [|x L IH]; intros s d; [done|].
    assert (Hx : zlen (x :: L) = Z.succ (zlen L)) by (cbn [length]; lia).
    rewrite Hx. rewrite seqZ_cons by lia. rewrite Z.pred_succ. simpl. apply IH.
  Qed.
  Lemma enum_dict_map' {X Y K} `{EqDecision K} (f : X → Y) (key : Y → K) (L : list X) :
    enum_dict key (map f L) = enum_dict (λ x, key (f x)) L.
  Proof using Type. apply enum_dict_map. Qed.
  Lemma enum_dict_ext {X K} `{EqDecision K} (key key' : X → K) (L : list X) :
    (∀ x, x ∈ L → key x = key' x) → enum_dict key L = enum_dict key' L.
  Proof using Type.
    unfold enum_dict. intros H. generalize 0. generalize (@nil (K * Z)). induction L as [|x L IH]; intros d s; [done|].
    assert (Hx : zlen (x :: L) = Z.succ (zlen L)) by (cbn [length]; lia).
    rewrite Hx. rewrite seqZ_cons by lia. rewrite Z.pred_succ. simpl. rewrite H by (by left).
    apply IH. intros. apply H. by right.
  Qed.

  Lemma text_rank_spec rev vals :
    NoDup vals → sortable coll pystr Alphanumeric rev vals →
    ∀ a b, a ∈ vals → b ∈ vals →
      ∃ ra rb, dget (text_sort coll pystr vals rev) (eq_class a) = Some ra ∧
        dget (text_sort coll pystr vals rev) (eq_class b) = Some rb ∧ (ra ?= rb) = dir_cmp rev (text_cmp coll pystr) a b.
  Proof using Type.
    intros Hnd Hs a b Ha Hb. unfold sortable in Hs.
    assert (Hnd' : NoDup (map pystr vals)).
    { apply NoDup_map_on; [|done]. intros x y Hx Hy E. apply Hs; [done|done|]. right.
      unfold text_cmp. rewrite E. apply (cmp_refl _ listcmp_ok). }
    unfold text_sort. rewrite text_dict; [|done|intros; apply not_elem_of_nil]. rewrite app_nil_l.
    set (text := map (λ v, (pystr v, v)) vals).
    assert (Hk : text.*1 = map pystr vals) by (unfold text; clear; induction vals as [|v l IH]; [done|cbn [map]; rewrite fmap_cons; by f_equal]).
    assert (Hget : ∀ v, v ∈ vals → dget text (pystr v) = Some v).
    { intros v Hv. apply dget_Some; [by rewrite Hk|]. unfold text.
      apply elem_of_list_In, in_map_iff. exists v. by rewrite <-elem_of_list_In. }
    rewrite Hk. cbv zeta. unfold sort_text.
    rewrite (py_sort_map pystr _ (leb_of (dir_cmp rev (text_cmp coll pystr)))) by done.
    rewrite !enum_dict_map'. set (L := py_sort _ vals).
    assert (HL : L ≡ₚ vals) by apply py_sort_perm.
    rewrite (enum_dict_ext _ eq_class) by (intros x Hx; rewrite HL in Hx; by rewrite Hget).
    pose proof (mode_cmp_ok Alphanumeric) as Hok. simpl in Hok.
    apply (enum_dict_rank eq_class (dir_cmp rev (text_cmp coll pystr)) L); [by apply cmp_dir| | |by rewrite HL|by rewrite HL].
    - by apply sorted_ltor.
    - intros x y. rewrite !HL. intros Hx Hy. rewrite dir_cmp_Eq. split.
      + intros E. by rewrite (Hs x y Hx Hy (or_intror E)).
      + intros E. rewrite (Hs x y Hx Hy (or_introl E)). apply (cmp_refl _ Hok).
  Qed.

  Lemma rank_spec m rev vals :
    NoDup vals → sortable coll pystr m rev vals →
    ∃ d, rank coll pystr vals rev m = Ok d ∧ ∀ a b, a ∈ vals → b ∈ vals →
      ∃ ra rb, rank_get m d a = Some ra ∧ rank_get m d b = Some rb ∧
        (ra ?= rb) = dir_cmp rev (mode_cmp coll pystr m) a b.
  Proof using Type.
    intros Hnd Hs. destruct m; simpl.
    - eexists. split; [done|]. by apply text_rank_spec.
    - by apply unix_rank_spec.
    - by apply excel_rank_spec.
  Qed.
End ranks.
