(** The aggregates median and mode of groupby. *)
From stdpp Require Import strings.
From Coq Require Import Lqa Qfield ZifyBool Sorted.
From Verif.Spec Require Import Statistics PySort.
From Verif.Model Require Import Stats.
From Verif.Proof Require Import StatsProofs.
From Verif.Spec Require Import Groupby.
From Verif.Model Require Import Groupby.
From Verif.Proof Require Import DictLemmas JoinBase GroupbyProofs GroupbyAcc.
Local Open Scope Z_scope.

(** ** the histogram *)
Definition hexpand (h : list (pyval * Z)) : list pyval := concat (map (λ e, replicate (Z.to_nat e.2) e.1) h).
Definition hist_of (l : list pyval) : list (pyval * Z) := fold_left hist_add l [].

Lemma hist_of_snoc l v : hist_of (l ++ [v]) = hist_add (hist_of l) v.
Proof. unfold hist_of. by rewrite fold_left_app. Qed.

Lemma median_state l : run_state Median l = Ok (GMedian (hist_of l)).
Proof. induction l as [|v l IH] using rev_ind; [done|]. rewrite run_state_snoc, IH, hist_of_snoc. done. Qed.
Lemma mode_state l : run_state Mode l = Ok (GMode (hist_of l)).
Proof. induction l as [|v l IH] using rev_ind; [done|]. rewrite run_state_snoc, IH, hist_of_snoc. done. Qed.

Lemma hist_cdict l : cdict (hist_of l) l.
Proof.
  induction l as [|v l IH] using rev_ind; [apply cdict_nil|]. rewrite hist_of_snoc.
  apply (cdict_dset _ _ v) in IH. unfold hist_add.
  replace (match dget (hist_of l) v with Some n => n + 1 | None => 1 end) with (dget_or (hist_of l) v 0 + 1); [done|].
  unfold dget_or. by destruct (dget (hist_of l) v).
Qed.
Lemma hist_keys l : (hist_of l).*1 = distinct l.
Proof.
  induction l as [|v l IH] using rev_ind; [done|]. rewrite hist_of_snoc. unfold hist_add.
  rewrite dset_keys, IH, distinct_snoc. done.
Qed.
Lemma hist_entry l k n : (k, n) ∈ hist_of l → n = cnt k l ∧ 0 < n.
Proof.
  destruct (hist_cdict l) as [Hnd Hd]. intros Hin. apply (dget_Some _ _ _ Hnd) in Hin. rewrite Hd in Hin.
  case_decide; [|done]. injection Hin as <-. done.
Qed.
Lemma hist_pos l : Forall (λ e, 0 < e.2) (hist_of l).
Proof. apply list.Forall_forall. intros [k n] Hin. by apply hist_entry in Hin as [_ ?]. Qed.

Lemma hexpand_cons e h : hexpand (e :: h) = replicate (Z.to_nat e.2) e.1 ++ hexpand h.
Proof. done. Qed.
Lemma hexpand_app a b : hexpand (a ++ b) = hexpand a ++ hexpand b.
Proof. unfold hexpand. by rewrite map_app, concat_app. Qed.
Lemma hexpand_perm a b : a ≡ₚ b → hexpand a ≡ₚ hexpand b.
Proof.
  induction 1 as [|x a b H IH|x y l|? ? ? ? ? ? ?]; rewrite ?hexpand_cons.
  - done.
  - by rewrite IH.
  - rewrite !app_assoc. by rewrite (Permutation_app_comm (replicate (Z.to_nat y.2) y.1)).
  - by etrans.
Qed.
Lemma hexpand_add h v : Forall (λ e, 0 < e.2) h → hexpand (hist_add h v) ≡ₚ v :: hexpand h.
Proof.
  intros Hp. unfold hist_add.
  induction Hp as [|[k n] h Hn Hp IH]; [done|]. cbn [dget dset]. destruct (decide (v = k)) as [->|Hne].
  - rewrite !hexpand_cons. cbn [fst snd] in *. replace (Z.to_nat (n + 1)) with (S (Z.to_nat n)) by lia. done.
  - rewrite !hexpand_cons. rewrite IH. by rewrite Permutation_middle.
Qed.
Lemma hist_expand l : hexpand (hist_of l) ≡ₚ l.
Proof.
  induction l as [|v l IH] using rev_ind; [done|]. rewrite hist_of_snoc, hexpand_add by apply hist_pos.
  rewrite IH. by rewrite Permutation_app_comm.
Qed.

(** ** median *)
Definition num (v : pyval) : Q := this (default (Qc_of_Z 0) (numeral v)).
Definition qpair (e : pyval * Z) : Q * Z := (num e.1, e.2).

Lemma py_insert_map {X Y} (g : X → Y) (l1 : X → X → bool) (l2 : Y → Y → bool) x l :
  (∀ y, y ∈ l → l1 x y = l2 (g x) (g y)) → map g (py_insert l1 x l) = py_insert l2 (g x) (map g l).
Proof.
  induction l as [|y l IH]; intros H; [done|]. cbn [py_insert map]. rewrite <- (H y) by left.
  destruct (l1 x y); [done|]. cbn [map]. f_equal. apply IH. intros z Hz. apply H. by right.
Qed.
Lemma py_sort_map {X Y} (g : X → Y) (l1 : X → X → bool) (l2 : Y → Y → bool) l :
  (∀ x y, x ∈ l → y ∈ l → l1 x y = l2 (g x) (g y)) → map g (py_sort l1 l) = py_sort l2 (map g l).
Proof.
  induction l as [|x l IH]; intros H; [done|]. change (py_sort l1 (x :: l)) with (py_insert l1 x (py_sort l1 l)).
  rewrite (py_insert_map g l1 l2).
  - rewrite IH; [done|]. intros y z Hy Hz. apply H; by right.
  - intros y Hy. rewrite py_sort_perm in Hy. apply H; [by left|by right].
Qed.

Definition uniform (l : list pyval) : Prop := (∀ v, v ∈ l → ∃ z, v = VInt z) ∨ (∀ v, v ∈ l → ∃ q, v = VFloat q).

Lemma uniform_numeral l v : uniform l → v ∈ l → ∃ q, numeral v = Some q ∧ num v = this q ∧ to_float v = q ∧
  cast_to_float v = Ok q ∧ parity v = 2 ∧ is_text v = false.
Proof.
  intros [H|H] [z ->]%H.
  - exists (Qc_of_Z z). done.
  - exists z. done.
Qed.
Lemma uniform_inj l x y : uniform l → x ∈ l → y ∈ l → (num x == num y)%Q → x = y.
Proof.
  intros [H|H] [a ->]%H [b ->]%H E; f_equal.
  - by apply (proj1 (inject_Z_injective a b)).
  - by apply (Qc_is_canon a b).
Qed.

Lemma qcompare_this a b : Qccompare a b = Qcompare (this a) (this b).
Proof. done. Qed.

Lemma asc_vc l x y : uniform l → x.1 ∈ l → y.1 ∈ l → asc cmp_hist x y = vc_leb (qpair x) (qpair y).
Proof.
  intros Hu Hx Hy. destruct (uniform_numeral l _ Hu Hx) as (a & _ & Ha & Hfa & _ & Hpa & Hta).
  destruct (uniform_numeral l _ Hu Hy) as (b & _ & Hb & Hfb & _ & Hpb & Htb).
  destruct x as [x n], y as [y m]. cbn [fst snd] in *. unfold asc, cmp_hist, qpair. cbn [fst snd].
  assert (cmp_value x y = Qccompare a b) as ->.
  { unfold cmp_value. rewrite Hpa, Hpb, Hfa, Hfb. by destruct x. }
  rewrite qcompare_this. unfold vc_leb. cbn [fst snd]. rewrite Ha, Hb.
  destruct (Qcompare (this a) (this b)) eqn:E; cbn [then_cmp].
  - apply Qeq_alt in E. assert (Qeq_bool (this a) (this b) = true) as -> by (by apply Qeq_bool_iff).
    unfold Z.leb. done.
  - apply Qlt_alt in E. assert (Qeq_bool (this a) (this b) = false) as ->.
    { apply not_true_iff_false. intros F%Qeq_bool_iff. lra. }
    symmetry. apply Qle_bool_iff. lra.
  - apply Qgt_alt in E. assert (Qeq_bool (this a) (this b) = false) as ->.
    { apply not_true_iff_false. intros F%Qeq_bool_iff. lra. }
    symmetry. apply not_true_iff_false. intros F%Qle_bool_iff. lra.
Qed.

Lemma hist_in l k n : (k, n) ∈ hist_of l → k ∈ l.
Proof. intros H. apply elem_of_distinct. rewrite <- hist_keys. apply elem_of_list_fmap. by exists (k, n). Qed.

Lemma sorted_uniform l : uniform l →
  let S := sorted_histogram (hist_of l) in
  S ≡ₚ hist_of l ∧ map qpair S = py_sort vc_leb (map qpair (hist_of l)).
Proof.
  intros Hu. unfold sorted_histogram.
  assert (Ht : text_of (hist_of l) = []).
  { unfold text_of. destruct (filter _ _) as [|[k n] r] eqn:E; [done|]. exfalso.
    assert (Hin : (k, n) ∈ filter (λ e, is_text e.1 = true) (hist_of l)) by (rewrite E; by left).
    apply elem_of_list_filter in Hin as [Hk Hin]. apply hist_in in Hin.
    destruct (uniform_numeral l _ Hu Hin) as (a & _ & _ & _ & _ & _ & Hta). cbn in Hk. congruence. }
  assert (Hnt : non_text_of (hist_of l) = hist_of l).
  { unfold non_text_of.
    assert (HF : ∀ e, e ∈ hist_of l → is_text e.1 = false).
    { intros [k n] Hin%hist_in. destruct (uniform_numeral l _ Hu Hin) as (a & _ & _ & _ & _ & _ & Hta). done. }
    clear Ht. induction (hist_of l) as [|e h IH]; [done|]. rewrite filter_cons, decide_True by (apply HF; by left).
    f_equal. apply IH. intros e' He'. apply HF. by right. }
  rewrite Ht, Hnt. change (py_sort (asc cmp_hist) []) with (@nil (pyval * Z)). rewrite app_nil_r. split; [apply py_sort_perm|].
  apply py_sort_map. intros [x n] [y m] Hx%hist_in Hy%hist_in. by apply (asc_vc l).
Qed.

(** the two loops find the entry that covers position [n / 2] *)
Lemma htotal h : fold_right Z.add 0 (map snd h) = StatsProofs.total (map qpair h).
Proof. unfold StatsProofs.total. rewrite map_map. done. Qed.

Lemma cover_split (sum : Z) h t :
  Forall (λ e : pyval * Z, 0 < e.2) h → 2 * t <= sum < 2 * (t + fold_right Z.add 0 (map snd h)) →
  ∃ pre k c post, h = pre ++ (k, c) :: post ∧ 2 * (t + fold_right Z.add 0 (map snd pre)) <= sum ∧
    sum < 2 * (t + fold_right Z.add 0 (map snd pre) + c) ∧
    median_odd sum t h = Ok k ∧
    ∀ B, median_even sum t B h =
      match match list.last pre with Some e => Some e.1 | None => B end with
      | None => Err OtherError
      | Some A => res_bind (cast_to_float A) (λ a, res_map (λ b, VFloat ((a + b) / Qc_of_Z 2)%Qc) (cast_to_float k))
      end.
Proof.
  intros Hp. revert t. induction Hp as [|[k c] h Hc Hp IH]; intros t Ht; cbn [map fold_right snd] in *; [lia|].
  destruct (sum <? 2 * (t + c)) eqn:E.
  - exists [], k, c, h. cbn [map fold_right app]. cbn [median_odd median_even]. rewrite E. split; [done|].
    split; [lia|]. split; [lia|]. done.
  - destruct (IH (t + c)) as (pre & k' & c' & post & -> & H1 & H2 & H3 & H4); [lia|].
    exists ((k, c) :: pre), k', c', post. cbn [map fold_right app snd]. cbn [median_odd median_even]. rewrite E.
    split; [done|]. split; [lia|]. split; [lia|]. split; [done|]. intros B. rewrite H4.
    destruct pre as [|e pre]; [done|]. change (list.last ((k, c) :: e :: pre)) with (list.last (e :: pre)).
    destruct (list.last (e :: pre)) eqn:El; [done|]. by apply last_None in El.
Qed.

Lemma map_num_hexpand h : map num (hexpand h) = expand (map qpair h).
Proof.
  unfold hexpand, expand. induction h as [|[k n] h IH]; [done|]. cbn [map concat fst snd qpair].
  rewrite map_app, IH. f_equal. induction (Z.to_nat n) as [|m IHm]; [done|]. cbn. by rewrite IHm.
Qed.

Lemma total_fst_app (a b : list (pyval * Z)) :
  fold_right Z.add 0 (map snd (a ++ b)) = fold_right Z.add 0 (map snd a) + fold_right Z.add 0 (map snd b).
Proof. induction a as [|e a IH]; cbn [app map fold_right]; [lia|]. rewrite IH. lia. Qed.
Lemma total_fst_perm (a b : list (pyval * Z)) :
  a ≡ₚ b → fold_right Z.add 0 (map snd a) = fold_right Z.add 0 (map snd b).
Proof. induction 1; cbn [map fold_right]; lia. Qed.

Lemma half_ne (x y : Q) : ~ (x == y)%Q → ~ ((x + y) / 2 == y)%Q.
Proof. intros H E. apply H. assert ((x + y == (x + y) / 2 * 2)%Q) as F by field. rewrite E in F. lra. Qed.

Lemma lookup_block_eq ys pre v c post (i : nat) :
  ys = expand (pre ++ (v, c) :: post) → Forall (λ e, 0 < e.2)%Z pre → (0 < c)%Z →
  (StatsProofs.total pre <= Z.of_nat i < StatsProofs.total pre + c)%Z → ys !! i = Some v.
Proof. intros ->. apply lookup_block. Qed.

Theorem median_run sqrt l : l ≠ [] → uniform l →
  ∃ a b, middle_two (map num l) a b ∧
    ((∃ v q, run_acc sqrt Median l = Ok v ∧ numeral v = Some q ∧ (this q == (a + b) / 2)%Q) ↔
     (Nat.even (length (distinct l)) = true ↔ ~ (a == b)%Q)).
Proof.
  intros Hne Hu. set (h := hist_of l). set (S := sorted_histogram h).
  destruct (sorted_uniform l Hu) as [HS HSmap]. fold h in HS, HSmap. fold S in HS, HSmap.
  assert (HposS : Forall (λ e, 0 < e.2) S) by (rewrite HS; apply hist_pos).
  assert (HposQ : Forall (λ e : Q * Z, 0 < e.2) (map qpair S)).
  { apply Forall_fmap. exact HposS. }
  assert (Hsort : StronglySorted (λ a b, vc_leb a b = true) (map qpair S)).
  { rewrite HSmap. apply py_sort_sorted; [apply vc_leb_total|apply vc_leb_trans]. }
  set (ys := expand (map qpair S)).
  assert (Hperm : ys ≡ₚ map num l).
  { unfold ys. rewrite <- map_num_hexpand. etrans; [|exact (Permutation_map num (hist_expand l))].
    apply Permutation_map, hexpand_perm. exact HS. }
  assert (Hqs : qsorted ys) by (by apply expand_sorted).
  assert (Hlen : Z.of_nat (length ys) = fold_right Z.add 0 (map snd S)).
  { unfold ys. rewrite expand_length by done. by rewrite htotal. }
  assert (Hlenl : length ys = length l).
  { apply Permutation_length in Hperm. rewrite Hperm. apply map_length. }
  set (sum := fold_right Z.add 0 (map snd h)).
  assert (Hsum : sum = fold_right Z.add 0 (map snd S)) by (unfold sum; symmetry; by apply total_fst_perm).
  assert (Hpos : 0 < sum) by (assert (0 < length l)%nat by (clear -Hne; destruct l; [done|cbn; lia]); lia).
  destruct (cover_split sum S 0 HposS) as (pre & k & c & post & HSe & H1 & H2 & Hodd & Heven); [lia|].
  set (tp := fold_right Z.add 0 (map snd pre)) in *.
  assert (HposP : Forall (λ e : Q * Z, 0 < e.2) (map qpair pre)).
  { apply Forall_fmap. rewrite HSe in HposS. apply Forall_app in HposS as [? _]. done. }
  assert (Hc : 0 < c).
  { rewrite HSe in HposS. apply Forall_app in HposS as [_ Hc]. by apply list.Forall_cons in Hc as [? _]. }
  assert (Htp : StatsProofs.total (map qpair pre) = tp) by (by rewrite <- htotal).
  assert (HtpS : Z.of_nat (length ys) = sum) by lia.
  assert (Hys : ys = expand (map qpair pre ++ (num k, c) :: map qpair post)).
  { unfold ys. by rewrite HSe, map_app. }
  assert (Hhi : ys !! (length ys / 2)%nat = Some (num k)).
  { pose proof (half_hi _ _ HtpS) as Hh. apply (lookup_block_eq _ _ _ _ _ _ Hys); [done|done|]. rewrite Htp, Hh.
    Z.div_mod_to_equations; nia. }
  assert (Hin : ∀ e, e ∈ S → e.1 ∈ l).
  { intros [x n] Hx. rewrite HS in Hx. by eapply hist_in. }
  assert (Hk : k ∈ l) by (apply (Hin (k, c)); rewrite HSe; apply elem_of_app; right; by left).
  destruct (uniform_numeral l k Hu Hk) as (qk & Hqk & Hnk & _ & Hcastk & _).
  assert (Hlenh : length (distinct l) = length h) by (unfold h; rewrite <- hist_keys; apply map_length).
  assert (Hrun : run_acc sqrt Median l = if Nat.even (length h) then median_even sum 0 None S else median_odd sum 0 S).
  { unfold run_acc. rewrite median_state. cbn [res_bind value_of]. fold h. unfold median_value. fold sum. fold S.
    destruct h as [|[k1 n1] [|e2 h']] eqn:Eh; [done| |done].
    apply Permutation_singleton_r in HS. cbn [length Nat.even]. rewrite HS.
    assert (sum = n1) by (unfold sum; cbn; lia). cbn [median_odd]. destruct (sum <? 2 * (0 + n1)) eqn:E; [done|].
    assert (0 < n1) by lia. lia. }
  rewrite Hlenh, Hrun.
  destruct (decide (2 * tp = sum)) as [Hhalf|Hhalf].
  - (* the middle elements are in two blocks *)
    destruct (list.last pre) as [[ka ca]|] eqn:El.
    2:{ apply last_None in El. unfold tp in Hhalf. rewrite El in Hhalf. cbn in Hhalf. lia. }
    apply last_Some in El as [pre' El].
    assert (Hlo : ys !! ((length ys - 1) / 2)%nat = Some (num ka)).
    { assert (Hys' : ys = expand (map qpair pre' ++ (num ka, ca) :: (num k, c) :: map qpair post)).
      { rewrite Hys, El, map_app. cbn [map]. by rewrite <- app_assoc. }
      rewrite El, map_app in HposP. apply Forall_app in HposP as [HposP' Hca].
      apply list.Forall_cons in Hca as [Hca _]. cbn in Hca. apply (lookup_block_eq _ _ _ _ _ _ Hys'); [done|done|].
      assert (tp = StatsProofs.total (map qpair pre') + ca).
      { rewrite <- Htp, El, map_app, total_app. unfold StatsProofs.total at 2. cbn. lia. }
      rewrite (half_lo _ _ HtpS) by lia. Z.div_mod_to_equations; nia. }
    assert (Hka : ka ∈ l).
    { apply (Hin (ka, ca)). rewrite HSe, El. apply elem_of_app. left. apply elem_of_app. right. by left. }
    destruct (uniform_numeral l ka Hu Hka) as (qa & Hqa & Hna & _ & Hcasta & _).
    assert (Hdiff : ~ (num ka == num k)%Q).
    { intros E. assert (ka = k) as -> by (by apply (uniform_inj l)).
      assert (Hnd : NoDup S.*1) by (rewrite HS; unfold h; rewrite hist_keys; apply NoDup_distinct).
      rewrite HSe, El, fmap_app in Hnd. apply NoDup_app in Hnd as (_ & Hd & _).
      apply (Hd k); [rewrite fmap_app; apply elem_of_app; right; by left|by left]. }
    exists (num ka), (num k). split; [by exists ys|]. destruct (Nat.even (length h)) eqn:Eev.
    + split; [done|]. intros _. rewrite Heven. cbn [fst]. rewrite Hcasta, Hcastk. cbn.
      eexists _, _. split; [done|]. split; [done|]. rewrite Hna, Hnk.
      rewrite this_div, this_plus. reflexivity.
    + split; [|intros [_ H]; by specialize (H Hdiff)].
      intros (v & q & Hv & Hq & Hm). rewrite Hodd in Hv. injection Hv as <-. rewrite Hqk in Hq. injection Hq as <-.
      rewrite <- Hnk in Hm. symmetry in Hm. by apply half_ne in Hm.
  - (* one block *)
    assert (Hlo : ys !! ((length ys - 1) / 2)%nat = Some (num k)).
    { apply (lookup_block_eq _ _ _ _ _ _ Hys); [done|done|]. rewrite (half_lo _ _ HtpS) by lia. rewrite Htp.
      Z.div_mod_to_equations; nia. }
    exists (num k), (num k). split; [by exists ys|]. destruct (Nat.even (length h)) eqn:Eev.
    + split.
      * intros (v & q & Hv & Hq & Hm). exfalso. rewrite Heven in Hv.
        destruct (list.last pre) as [[ka ca]|] eqn:El; [|done]. cbn [fst] in Hv.
        apply last_Some in El as [pre' El].
        assert (Hka : ka ∈ l).
        { apply (Hin (ka, ca)). rewrite HSe, El. apply elem_of_app. left. apply elem_of_app. right. by left. }
        destruct (uniform_numeral l ka Hu Hka) as (qa & Hqa & Hna & _ & Hcasta & _).
        rewrite Hcasta, Hcastk in Hv. cbn in Hv. injection Hv as <-. cbn in Hq. injection Hq as <-.
        rewrite this_div, this_plus in Hm. rewrite <- Hna, <- Hnk in Hm.
        assert (Hdiff : ~ (num ka == num k)%Q).
        { intros E. assert (ka = k) as -> by (by apply (uniform_inj l)).
          assert (Hnd : NoDup S.*1) by (rewrite HS; unfold h; rewrite hist_keys; apply NoDup_distinct).
          rewrite HSe, El, fmap_app in Hnd. apply NoDup_app in Hnd as (_ & Hd & _).
          apply (Hd k); [rewrite fmap_app; apply elem_of_app; right; by left|by left]. }
        apply (half_ne _ _ Hdiff). change (this (Qc_of_Z 2)) with 2%Q in Hm. rewrite Hm. field.
      * intros [H _]. exfalso. apply (H eq_refl). reflexivity.
    + split; [|].
      * intros _. split; [done|]. intros H. exfalso. apply H. reflexivity.
      * intros _. rewrite Hodd. eexists _, _. split; [done|]. split; [exact Hqk|]. rewrite <- Hnk. field.
Qed.

(** ** mode *)
Lemma cmp_freq_le x y : desc cmp_freq x y = true → y.2 <= x.2.
Proof. unfold desc, cmp_freq. destruct (Z.compare_spec x.2 y.2); cbn; [lia|done|lia]. Qed.
Lemma cmp_freq_gt x y : desc cmp_freq x y = false → x.2 <= y.2.
Proof. unfold desc, cmp_freq. destruct (Z.compare_spec x.2 y.2); cbn; [lia|lia|done]. Qed.

Lemma sort_head h : h ≠ [] → ∃ e r, py_sort (desc cmp_freq) h = e :: r ∧ ∀ x, x ∈ h → x.2 <= e.2.
Proof.
  induction h as [|x h IH]; [done|]. intros _. change (py_sort (desc cmp_freq) (x :: h)) with
    (py_insert (desc cmp_freq) x (py_sort (desc cmp_freq) h)).
  destruct h as [|y h].
  - exists x, []. split; [done|]. intros z ->%elem_of_list_singleton. done.
  - destruct IH as (e & r & -> & Hmax); [done|]. cbn [py_insert]. destruct (desc cmp_freq x e) eqn:E.
    + exists x, (e :: r). split; [done|]. apply cmp_freq_le in E.
      intros z [->|Hz]%elem_of_cons; [done|]. specialize (Hmax z Hz). lia.
    + exists e, (py_insert (desc cmp_freq) x r). split; [done|]. apply cmp_freq_gt in E.
      intros z [->|Hz]%elem_of_cons; [done|]. by apply Hmax.
Qed.

Lemma filter_cnt k l : Z.of_nat (length (filter (λ y : pyval, y = k) l)) = cnt k l.
Proof. done. Qed.

(** the most frequent value among those with [is_text v = b] *)
Lemma mode_part l b m n r :
  py_sort (desc cmp_freq) (filter (λ e, is_text e.1 = b) (hist_of l)) = (m, n) :: r →
  is_mode m (filter (λ v, is_text v = b) l).
Proof.
  intros Hs. set (hb := filter (λ e, is_text e.1 = b) (hist_of l)) in *.
  assert (Hin : (m, n) ∈ hb).
  { rewrite <- (py_sort_perm (desc cmp_freq) hb), Hs. by left. }
  destruct (sort_head hb) as (e & r' & He & Hmax); [by destruct hb|]. rewrite Hs in He. injection He as <- <-.
  unfold hb in Hin. apply elem_of_list_filter in Hin as [Hm Hin]. cbn in Hm.
  pose proof (hist_in _ _ _ Hin) as Hml. pose proof (hist_entry _ _ _ Hin) as [-> Hpos].
  split; [apply elem_of_list_filter; done|].
  assert (Hsame : ∀ x, is_text x = b → length (filter (λ y, y = x) (filter (λ v, is_text v = b) l)) = length (filter (λ y, y = x) l)).
  { intros x Hx. clear -Hx. induction l as [|y l IH]; [done|]. rewrite (filter_cons _ y l).
    destruct (decide (is_text y = b)).
    - rewrite !filter_cons. case_decide; cbn [length]; by rewrite IH.
    - rewrite IH, (filter_cons _ y l). rewrite decide_False; [done|]. by intros ->. }
  intros x. destruct (decide (is_text x = b)) as [Hx|Hx].
  - rewrite !Hsame by done. destruct (decide (x ∈ l)) as [Hxl|Hxl].
    + assert (Hxin : (x, cnt x l) ∈ hb).
      { apply elem_of_list_filter. split; [done|]. destruct (hist_cdict l) as [Hnd Hd].
        apply dget_Some; [done|]. rewrite Hd. rewrite decide_True; [done|]. by apply cnt_elem. }
      specialize (Hmax _ Hxin). cbn [snd] in Hmax. rewrite <- !filter_cnt in Hmax. lia.
    + pose proof (cnt_zero x l Hxl) as Hz. rewrite <- filter_cnt in Hz. lia.
  - assert (Hz : filter (λ y, y = x) (filter (λ v, is_text v = b) l) = []).
    { destruct (filter (λ y, y = x) _) as [|y r2] eqn:E; [done|]. exfalso.
      assert (Hy : y ∈ filter (λ y, y = x) (filter (λ v, is_text v = b) l)) by (rewrite E; by left).
      apply elem_of_list_filter in Hy as [-> Hy]. by apply elem_of_list_filter in Hy as [? _]. }
    rewrite Hz. cbn. lia.
Qed.

Theorem mode_run sqrt l : l ≠ [] →
  ∃ m, run_acc sqrt Mode l = Ok m ∧
    is_mode m (if existsb (λ v, negb (is_text v)) l then filter (λ v, is_text v = false) l else l).
Proof.
  intros Hne. unfold run_acc. rewrite mode_state. cbn [res_bind value_of].
  unfold sorted_histogram_reversed, non_text_of, text_of.
  destruct (py_sort (desc cmp_freq) (filter (λ e, is_text e.1 = false) (hist_of l))) as [|[m n] r] eqn:E.
  - assert (Hall : ∀ v, v ∈ l → is_text v = true).
    { intros v Hv. destruct (is_text v) eqn:Et; [done|]. exfalso.
      assert (Hin : (v, cnt v l) ∈ filter (λ e, is_text e.1 = false) (hist_of l)).
      { apply elem_of_list_filter. split; [done|]. destruct (hist_cdict l) as [Hnd Hd].
        apply dget_Some; [done|]. rewrite Hd. rewrite decide_True; [done|]. by apply cnt_elem. }
      rewrite <- (py_sort_perm (desc cmp_freq)), E in Hin. by apply elem_of_nil in Hin. }
    assert (Hf : filter (λ v, is_text v = true) l = l).
    { clear -Hall. induction l as [|v l IH]; [done|]. rewrite filter_cons, decide_True by (apply Hall; by left).
      f_equal. apply IH. intros w Hw. apply Hall. by right. }
    replace (existsb (λ v, negb (is_text v)) l) with false; cycle 1.
    { symmetry. apply not_true_iff_false. rewrite existsb_exists. intros (v & Hv%elem_of_list_In & Ht).
      rewrite Hall in Ht by done. done. }
    cbn [app]. destruct (py_sort (desc cmp_freq) (filter (λ e, is_text e.1 = true) (hist_of l))) as [|[m n] r] eqn:E2.
    + exfalso. destruct l as [|v l]; [done|].
      assert (Hin : (v, cnt v (v :: l)) ∈ filter (λ e, is_text e.1 = true) (hist_of (v :: l))).
      { apply elem_of_list_filter. split; [apply Hall; by left|]. destruct (hist_cdict (v :: l)) as [Hnd Hd].
        apply dget_Some; [done|]. rewrite Hd. rewrite decide_True; [done|]. apply cnt_elem. by left. }
      rewrite <- (py_sort_perm (desc cmp_freq)), E2 in Hin. by apply elem_of_nil in Hin.
    + exists m. split; [done|]. apply mode_part in E2. by rewrite Hf in E2.
  - exists m. split; [done|]. replace (existsb (λ v, negb (is_text v)) l) with true.
    + by eapply mode_part.
    + apply mode_part in E as [Hm _]. apply elem_of_list_filter in Hm as [Ht Hm]. symmetry.
      apply existsb_exists. exists m. split; [by apply elem_of_list_In|]. by rewrite Ht.
Qed.
