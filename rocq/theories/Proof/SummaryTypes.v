(** The summaries of columns of one type. *)
From Verif.Spec Require Import Statistics.
From Verif.Model Require Import Summary.
From Verif.Proof Require Import Binary64Proofs FloatValues.
From Coq Require Import Lqa ZifyBool.
From Verif.Proof Require Import StatsProofs SummaryProofs.
Local Open Scope Z_scope.

Lemma spelled_map {A B} (f : A → B) (h : list (A * Z)) : spelled (map (λ e, (f e.1, e.2)) h) = map f (spelled h).
Proof.
  unfold spelled. induction h as [|e h IH]; [done|]. cbn [map concat fst snd]. rewrite map_app, IH. f_equal. by rewrite <- fmap_replicate.
Qed.
Lemma elem_spelled {A} (h : list (A * Z)) x : x ∈ spelled h → x ∈ h.*1.
Proof.
  unfold spelled. induction h as [|e h IH]; intros H; [done|]. cbn [map concat] in H. apply elem_of_app in H as [H|H].
  - apply elem_of_replicate in H as [-> _]. cbn. left.
  - cbn. right. auto.
Qed.
Lemma spelled_elem {A} (h : list (A * Z)) x : Forall (λ e, 0 < e.2) h → x ∈ h.*1 → x ∈ spelled h.
Proof.
  intros H. unfold spelled. induction H as [|e h He Hh IH]; intros Hx; [done|]. cbn [map concat]. apply elem_of_app. cbn in Hx.
  apply elem_of_cons in Hx as [->|Hx]; [left; apply elem_of_replicate; split; [done|lia]|right; auto].
Qed.

Section Types.
  Context (root : Q → Q) (stamp : ymd → Z → Q) (unstamp : Q → res (ymd * Z)).
  Let number := number_of_value stamp.
  Let statistics := summary_statistics root stamp unstamp.

  Lemma column_pos t h : column_of t h → Forall (λ e, 0 < e.2) h.
  Proof. intros [_ H]. apply list.Forall_forall. rewrite list.Forall_forall in H. intros e He. by apply H. Qed.
  Lemma column_type t h v : column_of t h → v ∈ h.*1 → vtype_of v = t.
  Proof. intros [_ H] Hv. rewrite list.Forall_forall in H. apply elem_of_list_fmap in Hv as (e & -> & He). by apply H. Qed.

  (** the numbers of a column *)
  Lemma column_numbers t h : column_of t h → ∃ n,
    numeric root (map (λ e, (number e.1, e.2)) h) = Ok n ∧
    (∃ v, v ∈ h.*1 ∧ n_min n = number v ∧ ∀ x, x ∈ h.*1 → (number v <= number x)%Q) ∧
    (∃ v, v ∈ h.*1 ∧ n_max n = number v ∧ ∀ x, x ∈ h.*1 → (number x <= number v)%Q) ∧
    (∃ v, v ∈ h.*1 ∧ n_mode n = number v) ∧
    figures root (map number (spelled h)) (n_median n) (n_mean n) (n_stdev n) (n_sum n) (n_low n) (n_high n) (n_iqr n).
  Proof.
    intros Hc. pose proof (column_pos _ _ Hc) as Hp.
    destruct (numeric_spec root (map (λ e, (number e.1, e.2)) h) (map number (spelled h))) as (n & Hn & [Hmn1 Hmn2] & [Hmx1 Hmx2] & Hmo & R).
    - destruct Hc as [Hc _]. by destruct h.
    - apply list.Forall_forall. intros e (e' & -> & He)%elem_of_list_fmap. cbn. rewrite list.Forall_forall in Hp. by apply Hp.
    - by rewrite (spelled_map number).
    - exists n. split; [done|]. apply elem_of_list_fmap in Hmn1 as (v1 & E1 & H1). apply elem_of_list_fmap in Hmx1 as (v2 & E2 & H2).
      apply elem_of_list_fmap in Hmo as (v3 & E3 & H3).
      split_and!; try (by apply R).
      + exists v1. split; [by apply elem_spelled|]. split; [done|]. intros x Hx. rewrite <- E1. apply Hmn2. apply elem_of_list_fmap. exists x. split; [done|]. by apply spelled_elem.
      + exists v2. split; [by apply elem_spelled|]. split; [done|]. intros x Hx. rewrite <- E2. apply Hmx2. apply elem_of_list_fmap. exists x. split; [done|]. by apply spelled_elem.
      + exists v3. split; [by apply elem_spelled|done].
  Qed.

  Lemma column_statistics t h : column_of t h →
    statistics h = res_map (λ s, Some (Report s (zlen h) t h)) (summary_of root stamp unstamp t h).
  Proof. intros [H1 H2]. by apply homogeneous. Qed.

  Lemma measure_numbers t h : t ∈ [BoolT; IntT; FloatT; StrT] → column_of t h → map number (spelled h) = map measure (spelled h).
  Proof.
    intros Ht Hc. apply map_ext_in. intros v Hv%elem_of_list_In. apply elem_spelled, (column_type _ _ _ Hc) in Hv. subst t.
    by destruct v; try (exfalso; revert Ht; rewrite !elem_of_cons, elem_of_nil; intuition discriminate).
  Qed.

  Lemma moment_numbers t h : t ∈ [DateT; DateTimeT] → column_of t h → map number (spelled h) = map (moment_number stamp) (spelled h).
  Proof.
    intros Ht Hc. apply map_ext_in. intros v Hv%elem_of_list_In. apply elem_spelled, (column_type _ _ _ Hc) in Hv. subst t.
    by destruct v; try (exfalso; revert Ht; rewrite !elem_of_cons, elem_of_nil; intuition discriminate).
  Qed.

  Lemma numbers_summary t h : t ∈ [IntT; FloatT] → column_of t h → ∃ mn mx me md sd mo lo hi iq sm,
    statistics h = Ok (Some (Report (Summary (Num mn) (Num mx) (Num me) (Num md) (Num sd) (Num mo) (Num lo) (Num hi) (Num iq) (Num sm)) (zlen h) t h)) ∧
    let xs := map measure (spelled h) in
    (mn ∈ xs ∧ ∀ x, x ∈ xs → (mn <= x)%Q) ∧ (mx ∈ xs ∧ ∀ x, x ∈ xs → (x <= mx)%Q) ∧ mo ∈ xs ∧ figures root xs md me sd sm lo hi iq.
  Proof.
    intros Ht Hc. rewrite (column_statistics t) by done.
    assert (map number (spelled h) = map measure (spelled h)) as E.
    { apply (measure_numbers t); [|done]. revert Ht. rewrite !elem_of_cons, elem_of_nil. tauto. }
    assert (summary_of root stamp unstamp t h = res_map plain_summary (numeric root (map (λ e, (number e.1, e.2)) h))) as ->.
    { revert Ht. rewrite !elem_of_cons, elem_of_nil. by intros [->|[->|[]]]. }
    destruct (column_numbers t h Hc) as (n & -> & (v1 & H1 & E1 & L1) & (v2 & H2 & E2 & L2) & (v3 & H3 & E3) & R). cbn [res_map].
    unfold plain_summary. do 10 eexists. split; [done|]. cbn zeta. rewrite <- E. pose proof (column_pos _ _ Hc) as Hp.
    split_and!; try (by apply R).
    - rewrite E1. apply elem_of_list_fmap. exists v1. split; [done|]. by apply spelled_elem.
    - intros x (v & -> & Hv)%elem_of_list_fmap. rewrite E1. apply L1. by apply elem_spelled.
    - rewrite E2. apply elem_of_list_fmap. exists v2. split; [done|]. by apply spelled_elem.
    - intros x (v & -> & Hv)%elem_of_list_fmap. rewrite E2. apply L2. by apply elem_spelled.
    - rewrite E3. apply elem_of_list_fmap. exists v3. split; [done|]. by apply spelled_elem.
  Qed.

  Lemma text_summary h : column_of StrT h → ∃ mn mx me md sd mo lo hi iq sm,
    statistics h = Ok (Some (Report (Summary (Chars mn) (Chars mx) (Chars me) (Chars md) (Chars sd) (Val mo) (Chars lo) (Chars hi) (Chars iq) (Chars sm)) (zlen h) StrT h)) ∧
    let xs := map measure (spelled h) in
    (mn ∈ xs ∧ ∀ x, x ∈ xs → (mn <= x)%Q) ∧ (mx ∈ xs ∧ ∀ x, x ∈ xs → (x <= mx)%Q) ∧ most_frequent mo h ∧ figures root xs md me sd sm lo hi iq.
  Proof.
    intros Hc. rewrite (column_statistics StrT) by done.
    assert (map number (spelled h) = map measure (spelled h)) as E.
    { apply (measure_numbers StrT); [|done]. rewrite !elem_of_cons. tauto. }
    cbn [summary_of]. fold number.
    destruct (column_numbers StrT h Hc) as (n & -> & (v1 & H1 & E1 & L1) & (v2 & H2 & E2 & L2) & _ & R). cbn [res_bind].
    unfold text_mode. destruct (first_best_spec h) as ([m c] & -> & Hin & Hmax); [apply Hc|]. cbn [fmap option_fmap option_map fst res_map].
    unfold string_summary. do 10 eexists. split; [done|]. cbn zeta. rewrite <- E. pose proof (column_pos _ _ Hc) as Hp.
    split_and!; try (by apply R).
    - rewrite E1. apply elem_of_list_fmap. exists v1. split; [done|]. by apply spelled_elem.
    - intros x (v & -> & Hv)%elem_of_list_fmap. rewrite E1. apply L1. by apply elem_spelled.
    - rewrite E2. apply elem_of_list_fmap. exists v2. split; [done|]. by apply spelled_elem.
    - intros x (v & -> & Hv)%elem_of_list_fmap. rewrite E2. apply L2. by apply elem_spelled.
    - exists c. split; [done|]. intros x k Hx. apply (Hmax (x, k) Hx).
  Qed.

  Lemma bool_values h : column_of BoolT h → ∃ r mn mx mo,
    statistics h = Ok (Some r) ∧ s_min (r_summary r) = Val (BoolV mn) ∧ s_max (r_summary r) = Val (BoolV mx) ∧ s_mode (r_summary r) = Val (BoolV mo) ∧
    (mn = true ↔ BoolV false ∉ h.*1) ∧ (mx = false ↔ BoolV true ∉ h.*1) ∧ BoolV mo ∈ h.*1 ∧
    ∃ md me sd sm lo hi iq, figures root (map measure (spelled h)) md me sd sm lo hi iq ∧
    s_median (r_summary r) = (if Qeq_bool md 1 then Val (BoolV true) else if Qeq_bool md 0 then Val (BoolV false) else Num md) ∧
    s_mean (r_summary r) = Num me ∧ s_stdev (r_summary r) = Num sd ∧ s_sum (r_summary r) = Num sm ∧
    s_iqr_low (r_summary r) = Num lo ∧ s_iqr_high (r_summary r) = Num hi ∧ s_iqr (r_summary r) = Num iq.
  Proof.
    intros Hc. rewrite (column_statistics BoolT) by done. cbn [summary_of]. fold number.
    destruct (column_numbers BoolT h Hc) as (n & -> & (v1 & H1 & E1 & L1) & (v2 & H2 & E2 & L2) & (v3 & H3 & E3) & R). cbn [res_map].
    assert (∀ v, v ∈ h.*1 → ∃ b, v = BoolV b) as HB.
    { intros v Hv. pose proof (column_type _ _ _ Hc Hv) as T. destruct v; try discriminate. by eexists. }
    destruct (HB v1 H1) as [b1 ->], (HB v2 H2) as [b2 ->], (HB v3 H3) as [b3 ->].
    assert (∀ b, as_bool (number (BoolV b)) = Val (BoolV b)) as EB by (by intros []).
    eexists _, b1, b2, b3. split; [done|]. cbn [r_summary s_min s_max s_mode bool_summary]. rewrite E1, E2, E3, !EB. split_and!; try done.
    - split.
      + intros -> Hf. specialize (L1 _ Hf). cbn in L1. lra.
      + intros Hf. destruct b1; done.
    - split.
      + intros -> Hf. specialize (L2 _ Hf). cbn in L2. lra.
      + intros Hf. destruct b2; done.
    - rewrite <- (measure_numbers BoolT) by (done || rewrite !elem_of_cons; tauto). do 7 eexists. split; [exact R|]. done.
  Qed.

  Lemma delta_fails h : column_of DeltaT h → statistics h = Err AttributeError.
  Proof. intros Hc. rewrite (column_statistics DeltaT) by done. destruct Hc as [Hc _]. by destruct h. Qed.
  Lemma other_fails h : column_of OtherT h → statistics h = Err TypeError.
  Proof. intros Hc. by rewrite (column_statistics OtherT) by done. Qed.

  (** times of whole seconds *)
  Lemma qtrunc_whole x n : (x == inject_Z n)%Q → qtrunc x = n.
  Proof.
    intros E. unfold qtrunc. unfold Qeq, inject_Z in E. cbn in E. rewrite Z.mul_1_r in E. rewrite E. apply Z.quot_mul. lia.
  Qed.
  Lemma floor_whole x n m : 0 < m → (x == inject_Z n)%Q → Qfloor (x / inject_Z m) = n / m.
  Proof. intros Hm E. rewrite Zdiv_Qdiv. apply Qround.Qfloor_comp. by rewrite E. Qed.
  Lemma seconds_whole s : 0 <= s < 86400 → (seconds_of (s * 1000000) == inject_Z s)%Q.
  Proof.
    intros Hs. unfold seconds_of. rewrite Z.div_mul, Z.mod_mul by lia. apply fl_whole; [|lia].
    rewrite (fl_whole _ 0); [|done|lia]. change (inject_Z 0) with 0%Q. ring.
  Qed.
  Lemma seconds_exact s : 0 <= s < 86400 → seconds_of (s * 1000000) = inject_Z s.
  Proof.
    intros Hs. pose proof (seconds_whole s Hs) as E. unfold seconds_of in *. apply Qred_complete in E. rewrite Qcanon.canon in E.
    rewrite E. unfold inject_Z. apply Qred_identity. cbn. apply Z.gcd_1_r.
  Qed.
  Lemma time_whole x s : 0 <= s < 86400 → (x == inject_Z s)%Q → time_of x = Ok (Val (TimeV (s * 1000000))).
  Proof.
    intros Hs E. unfold time_of. cbv zeta. rewrite (floor_whole x s 3600) by (done || lia).
    pose proof (Z.mod_pos_bound s 3600 eq_refl) as B1. pose proof (Z.div_mod s 3600 ltac:(lia)) as D1.
    set (h := s / 3600) in *. set (q := s mod 3600) in *.
    assert (this (fl (x - inject_Z (h * 3600))) == inject_Z q)%Q as E1.
    { apply fl_whole; [|lia]. rewrite E. unfold Qminus. rewrite <- inject_Z_opp, <- inject_Z_plus. f_equiv. lia. }
    rewrite (floor_whole _ q 60) by (done || lia).
    pose proof (Z.mod_pos_bound q 60 eq_refl) as B2. pose proof (Z.div_mod q 60 ltac:(lia)) as D2.
    set (m := q / 60) in *. set (r := q mod 60) in *.
    assert (this (fl (this (fl (x - inject_Z (h * 3600))) - inject_Z (m * 60))) == inject_Z r)%Q as E2.
    { apply fl_whole; [|lia]. rewrite E1. unfold Qminus. rewrite <- inject_Z_opp, <- inject_Z_plus. f_equiv. lia. }
    rewrite (qtrunc_whole _ r E2).
    set (y := this (fl (this (fl (x - inject_Z (h * 3600))) - inject_Z (m * 60)))) in *.
    assert (this (fl (y - inject_Z r)) == inject_Z 0)%Q as E3.
    { apply fl_whole; [|lia]. rewrite E2. change (inject_Z 0) with 0%Q. ring. }
    rewrite (qtrunc_whole (this (fl (inject_Z 1000000 * this (fl (y - inject_Z r))))) 0).
    2: { apply fl_whole; [|lia]. rewrite E3. change (inject_Z 0) with 0%Q. ring. }
    match goal with |- (if ?c then _ else _) = _ => replace c with true by lia end. do 3 f_equal. lia.
  Qed.

  Lemma time_values h r : column_of TimeT h → (∀ us, TimeV us ∈ h.*1 → 0 <= us < 86400000000 ∧ us mod 1000000 = 0) → statistics h = Ok (Some r) →
    ∃ mn mx mo, s_min (r_summary r) = Val (TimeV mn) ∧ s_max (r_summary r) = Val (TimeV mx) ∧ s_mode (r_summary r) = Val (TimeV mo) ∧
    (TimeV mn ∈ h.*1 ∧ ∀ x, TimeV x ∈ h.*1 → mn <= x) ∧ (TimeV mx ∈ h.*1 ∧ ∀ x, TimeV x ∈ h.*1 → x <= mx) ∧ TimeV mo ∈ h.*1 ∧
    ∃ md me sd sm lo hi iq, figures root (map (moment_number stamp) (spelled h)) md me sd sm lo hi iq ∧
    time_of md = Ok (s_median (r_summary r)) ∧ time_of me = Ok (s_mean (r_summary r)) ∧ s_iqr_low (r_summary r) = Num lo ∧ s_iqr_high (r_summary r) = Num hi ∧
    s_stdev (r_summary r) = Seconds sd ∧ s_sum (r_summary r) = Seconds sm ∧ s_iqr (r_summary r) = Seconds iq.
  Proof.
    intros Hc Hw. rewrite (column_statistics TimeT) by done. cbn [summary_of]. fold number.
    destruct (column_numbers TimeT h Hc) as (n & -> & (v1 & H1 & E1 & L1) & (v2 & H2 & E2 & L2) & (v3 & H3 & E3) & R). cbn [res_bind].
    assert (∀ v, v ∈ h.*1 → ∃ s, v = TimeV (s * 1000000) ∧ 0 <= s < 86400) as HB.
    { intros v Hv. pose proof (column_type _ _ _ Hc Hv) as T. destruct v as [| | | | | | |us| |]; try discriminate. destruct (Hw us Hv) as [B M].
      exists (us / 1000000). pose proof (Z.div_mod us 1000000 ltac:(lia)). split; [f_equal; lia|lia]. }
    destruct (HB v1 H1) as (s1 & -> & B1), (HB v2 H2) as (s2 & -> & B2), (HB v3 H3) as (s3 & -> & B3).
    unfold time_summary. rewrite E1, E2, E3. unfold number. cbn [number_of_value].
    rewrite (time_whole (seconds_of (s1 * 1000000)) s1), (time_whole (seconds_of (s2 * 1000000)) s2), (time_whole (seconds_of (s3 * 1000000)) s3) by (done || by apply seconds_whole). cbn [res_bind].
    destruct (time_of (n_mean n)) as [me|] eqn:Eme; [|done]. cbn [res_bind]. destruct (time_of (n_median n)) as [md|] eqn:Emd; [|done]. cbn [res_bind res_map].
    intros [= <-]. cbn [r_summary s_min s_max s_mode]. eexists _, _, _. split_and!; try done.
    - intros x Hx. destruct (HB _ Hx) as (s & [= ->] & B). specialize (L1 _ Hx). unfold number in L1. cbn [number_of_value] in L1.
      rewrite !seconds_whole in L1 by done. apply Zle_Qle in L1 || rewrite <- Zle_Qle in L1. lia.
    - intros x Hx. destruct (HB _ Hx) as (s & [= ->] & B). specialize (L2 _ Hx). unfold number in L2. cbn [number_of_value] in L2.
      rewrite !seconds_whole in L2 by done. rewrite <- Zle_Qle in L2. lia.
    - assert (map number (spelled h) = map (moment_number stamp) (spelled h)) as <-.
      { apply map_ext_in. intros v Hv%elem_of_list_In. apply elem_spelled in Hv. destruct (HB v Hv) as (s & -> & B).
        unfold number. cbn [number_of_value moment_number]. rewrite Z.div_mul by lia. by apply seconds_exact. }
      do 7 eexists. split; [exact R|]. by rewrite Emd, Eme.
  Qed.

  (** dates *)
  Lemma date_values h r : (∀ d, DateV d ∈ h.*1 → unstamp (stamp d 0) = Ok (d, 0)) → column_of DateT h → statistics h = Ok (Some r) →
    ∃ mn mx mo, s_min (r_summary r) = Val (DateV mn) ∧ s_max (r_summary r) = Val (DateV mx) ∧ s_mode (r_summary r) = Val (DateV mo) ∧
    (DateV mn ∈ h.*1 ∧ ∀ x, DateV x ∈ h.*1 → (stamp mn 0 <= stamp x 0)%Q) ∧ (DateV mx ∈ h.*1 ∧ ∀ x, DateV x ∈ h.*1 → (stamp x 0 <= stamp mx 0)%Q) ∧
    DateV mo ∈ h.*1 ∧
    ∃ md me sd sm lo hi iq d1 d2, figures root (map (moment_number stamp) (spelled h)) md me sd sm lo hi iq ∧
    unstamp md = Ok d1 ∧ s_median (r_summary r) = Val (DateV d1.1) ∧ unstamp me = Ok d2 ∧ s_mean (r_summary r) = Val (DateV d2.1) ∧
    s_iqr_low (r_summary r) = Num lo ∧ s_iqr_high (r_summary r) = Num hi ∧
    s_stdev (r_summary r) = Days (sd / 86400) ∧ s_sum (r_summary r) = Days (sm / 86400) ∧ s_iqr (r_summary r) = Days (iq / 86400).
  Proof.
    intros Hs Hc. rewrite (column_statistics DateT) by done. cbn [summary_of]. fold number.
    destruct (column_numbers DateT h Hc) as (n & -> & (v1 & H1 & E1 & L1) & (v2 & H2 & E2 & L2) & (v3 & H3 & E3) & R). cbn [res_bind].
    assert (∀ v, v ∈ h.*1 → ∃ d, v = DateV d) as HB.
    { intros v Hv. pose proof (column_type _ _ _ Hc Hv) as T. destruct v; try discriminate. by eexists. }
    destruct (HB v1 H1) as (s1 & ->), (HB v2 H2) as (s2 & ->), (HB v3 H3) as (s3 & ->).
    unfold date_summary. rewrite E1, E2, E3. unfold number, day. cbn [number_of_value]. rewrite !Hs by done. cbn [res_bind res_map fst].
    destruct (unstamp (n_mean n)) as [me|] eqn:Eme; [|done]. cbn [res_bind res_map]. destruct (unstamp (n_median n)) as [md|] eqn:Emd; [|done]. cbn [res_bind res_map].
    intros [= <-]. cbn [r_summary s_min s_max s_mode]. eexists _, _, _. split_and!; try done.
    - intros x Hx. apply (L1 _ Hx).
    - intros x Hx. apply (L2 _ Hx).
    - rewrite <- (moment_numbers DateT) by (done || rewrite !elem_of_cons; tauto). do 9 eexists. split; [exact R|]. rewrite Eme, Emd. done.
  Qed.
  Lemma datetime_values h r : (∀ d us, DateTimeV d us ∈ h.*1 → unstamp (stamp d us) = Ok (d, us)) → column_of DateTimeT h → statistics h = Ok (Some r) →
    ∃ mn mnu mx mxu mo mou, s_min (r_summary r) = Val (DateTimeV mn mnu) ∧ s_max (r_summary r) = Val (DateTimeV mx mxu) ∧ s_mode (r_summary r) = Val (DateTimeV mo mou) ∧
    (DateTimeV mn mnu ∈ h.*1 ∧ ∀ x u, DateTimeV x u ∈ h.*1 → (stamp mn mnu <= stamp x u)%Q) ∧
    (DateTimeV mx mxu ∈ h.*1 ∧ ∀ x u, DateTimeV x u ∈ h.*1 → (stamp x u <= stamp mx mxu)%Q) ∧ DateTimeV mo mou ∈ h.*1 ∧
    ∃ md me sd sm lo hi iq d1 d2 d3 d4, figures root (map (moment_number stamp) (spelled h)) md me sd sm lo hi iq ∧
    unstamp md = Ok d1 ∧ s_median (r_summary r) = Val (DateTimeV d1.1 d1.2) ∧ unstamp me = Ok d2 ∧ s_mean (r_summary r) = Val (DateTimeV d2.1 d2.2) ∧
    unstamp lo = Ok d3 ∧ s_iqr_low (r_summary r) = Val (DateTimeV d3.1 d3.2) ∧ unstamp hi = Ok d4 ∧ s_iqr_high (r_summary r) = Val (DateTimeV d4.1 d4.2) ∧
    s_stdev (r_summary r) = Days (sd / 86400) ∧ s_sum (r_summary r) = Days (sm / 86400) ∧ s_iqr (r_summary r) = Days (iq / 86400).
  Proof.
    intros Hs Hc. rewrite (column_statistics DateTimeT) by done. cbn [summary_of]. fold number.
    destruct (column_numbers DateTimeT h Hc) as (n & -> & (v1 & H1 & E1 & L1) & (v2 & H2 & E2 & L2) & (v3 & H3 & E3) & R). cbn [res_bind].
    assert (∀ v, v ∈ h.*1 → ∃ d us, v = DateTimeV d us) as HB.
    { intros v Hv. pose proof (column_type _ _ _ Hc Hv) as T. destruct v; try discriminate. by eexists _, _. }
    destruct (HB v1 H1) as (s1 & u1 & ->), (HB v2 H2) as (s2 & u2 & ->), (HB v3 H3) as (s3 & u3 & ->).
    unfold datetime_summary. rewrite E1, E2, E3. unfold number, moment. cbn [number_of_value]. rewrite !Hs by done. cbn [res_bind res_map fst snd].
    destruct (unstamp (n_mean n)) as [me|] eqn:Eme; [|done]. cbn [res_bind res_map]. destruct (unstamp (n_median n)) as [md|] eqn:Emd; [|done]. cbn [res_bind res_map].
    destruct (unstamp (n_low n)) as [lo|] eqn:Elo; [|done]. cbn [res_bind res_map]. destruct (unstamp (n_high n)) as [hi|] eqn:Ehi; [|done]. cbn [res_bind res_map].
    intros [= <-]. cbn [r_summary s_min s_max s_mode]. eexists _, _, _, _, _, _. split_and!; try done.
    - intros x u Hx. apply (L1 _ Hx).
    - intros x u Hx. apply (L2 _ Hx).
    - rewrite <- (moment_numbers DateTimeT) by (done || rewrite !elem_of_cons; tauto). do 11 eexists. split; [exact R|]. rewrite Eme, Emd, Elo, Ehi. done.
  Qed.

  Lemma time_lost : ∃ h r, column_of TimeT h ∧ statistics h = Ok (Some r) ∧
    h.*1 = [TimeV 251] ∧ s_min (r_summary r) = Val (TimeV 250) ∧ s_max (r_summary r) = Val (TimeV 250) ∧ s_mode (r_summary r) = Val (TimeV 250).
  Proof.
    exists [(TimeV 251, 1)]. assert (column_of TimeT [(TimeV 251, 1)]) as Hc by (split; [done|repeat constructor]).
    unfold statistics. rewrite (column_statistics TimeT) by done. cbn [summary_of].
    eexists. split; [done|]. split.
    { lazymatch goal with |- res_map ?f ?x = _ => let y := eval vm_compute in x in change (res_map f x) with (res_map f y) end. reflexivity. }
    repeat split.
  Qed.
End Types.
