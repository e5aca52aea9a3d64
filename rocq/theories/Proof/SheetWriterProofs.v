(** Proofs for Props/SheetWriter.v. *)
From Coq Require Import String Qabs.
From Verif.Proof Require Import TableBase SheetFinal SheetOds JsonTableProofs CodecProofs ExportProofs.
From Verif.Model Require Import SheetWriter.
Local Open Scope list_scope.
Local Open Scope Z_scope.

Lemma moderate_big v : too_big v = false ↔ moderate v.
Proof.
  destruct v as [|b|z|[q| | | |]|s|s|d t|d|t|d s u]; cbn [too_big moderate]; try done.
  - by destruct b.
  - change (2 ^ 32 - 1) with 4294967295. lia.
  - rewrite negb_false_iff, Qle_bool_iff, Qabs_Qle_condition.
    change (- inject_Z (2 ^ 32 - 1))%Q with (inject_Z (-4294967295)). done.
Qed.

Section Writer.
  Context (fshow : fval → text) (fread : text → option fval).
  Definition shown_value (v : cval) : cval := match old_format_value fshow v with Ok w => w | Err _ => v end.

  Lemma old_format_ok v : (∀ s, v ≠ CBytes s) → old_format_value fshow v = Ok (shown_value v).
  Proof.
    intros H. unfold shown_value. unfold old_format_value. destruct (too_big v); [done|].
    destruct v as [|b|z|f|s|s|d t|d|t|d s u]; cbn; try done. by specialize (H s).
  Qed.
  Lemma old_format_bytes s : old_format_value fshow (CBytes s) = Err TypeError.
  Proof. done. Qed.

  Lemma shown_held v : reads_back fshow fread → plain_text fshow → py_value v → (∀ s, v ≠ CBytes s) → held fread v (shown_value v).
  Proof.
    intros R P V B. unfold held, shown_value, old_format_value. destruct (too_big v) eqn:E.
    - assert (¬ moderate v) as M by (rewrite <- moderate_big; congruence).
      split.
      + intros W. destruct v; cbn in W, M; tauto.
      + intros _. pose proof (bytes_roundtrip fshow fread v R V) as Hb.
        destruct v as [|b|z|f|s|s|d t|d|t|d s u]; cbn in M; try (exfalso; tauto).
        * exists (int_show z). split; [done|]. by apply Hb.
        * exists (fshow f). split; [done|]. by apply Hb.
    - assert (moderate v) as M by by apply moderate_big.
      assert (¬ written_plain v → ∃ j, Codec.to_json fshow v = Ok j ∧ from_json fread false j (type_of v) = Ok v) as J.
      { intros W. apply json_roundtrip_texts; try done. intros s ->. by cbn in W. }
      destruct v as [|b|z|f|s|s|d t|d|t|d s u]; cbn [Codec.to_json res_map value_of] in *; cbn [written_plain] in *;
        try (by specialize (B s)); (split; [try done; tauto|]); try (intros W; exfalso; tauto);
        intros W; destruct (J W) as (j & Ej & Hj); injection Ej as <-; eexists; by split.
  Qed.
End Writer.

Lemma gen_spec {T} (t : table string cval T) : gen t = Ok (map (λ n, CStr (txt n)) t.*1 :: rows CNone (contents t)).
Proof. unfold gen. by rewrite tbl_rows_spec. Qed.

Lemma xlsx_cells {T} fshow suffix (t : table string cval T) : suffix ≠ ".xls"%string → suffix ≠ ".ods"%string →
  excel_writer fshow suffix t = Ok (map (λ n, CStr (txt n)) t.*1 :: rows CNone (contents t)).
Proof.
  intros H1 H2. unfold excel_writer. rewrite gen_spec. cbn [res_bind]. rewrite bool_decide_eq_false_2; [done|].
  rewrite !elem_of_cons, elem_of_nil. tauto.
Qed.

Lemma elem_rows (v : list (string * list cval)) r x : r ∈ rows CNone v → x ∈ r → x = CNone ∨ ∃ c, c ∈ v ∧ x ∈ c.2.
Proof.
  intros Hr Hx. apply elem_of_list_In, in_map_iff in Hr as (i & <- & _). unfold row in Hx.
  apply elem_of_list_In, in_map_iff in Hx as (c & <- & Hc). destruct (c.2 !! i) as [y|] eqn:E; cbn; [right|by left].
  exists c. split; [by apply elem_of_list_In|by eapply elem_of_list_lookup_2].
Qed.
Lemma rows_elem (v : list (string * list cval)) c x : c ∈ v → x ∈ c.2 → ∃ r, r ∈ rows CNone v ∧ x ∈ r.
Proof.
  intros Hc [i Hi]%elem_of_list_lookup_1. exists (row CNone v i). split.
  - apply elem_of_list_In, in_map. apply in_seq. destruct c as [n l]. pose proof (nrows_le v n l Hc). apply lookup_lt_Some in Hi. cbn in Hi. lia.
  - unfold row. apply elem_of_list_In, in_map_iff. exists c. rewrite Hi. split; [done|by apply elem_of_list_In].
Qed.

Lemma map_res_all {A B} (f : A → res B) (g : A → B) l : (∀ x, x ∈ l → f x = Ok (g x)) → JsonTable.map_res f l = Ok (map g l).
Proof.
  intros H. apply map_res_Forall2. induction l as [|x l IH]; cbn; constructor.
  - apply H. by left.
  - apply IH. intros y Hy. apply H. by right.
Qed.

Lemma ods_cells {T} fshow (t : table string cval T) : (∀ c s, c ∈ contents t → CBytes s ∉ c.2) →
  excel_writer fshow ".ods" t = Ok (map (λ n, CStr (txt n)) t.*1 :: map (map (shown_value fshow)) (rows CNone (contents t))).
Proof.
  intros H. unfold excel_writer. rewrite gen_spec. cbn [res_bind]. rewrite bool_decide_eq_true_2 by (rewrite !elem_of_cons; tauto).
  assert (∀ r, r ∈ (map (λ n, CStr (txt n)) t.*1 :: rows CNone (contents t)) →
    JsonTable.map_res (old_format_value fshow) r = Ok (map (shown_value fshow) r)) as Hr.
  { intros r Hr. apply map_res_all. intros x Hx. apply old_format_ok. intros s ->.
    apply elem_of_cons in Hr as [-> | Hr].
    - apply elem_of_list_In, in_map_iff in Hx as (n & [=] & _).
    - destruct (elem_rows _ _ _ Hr Hx) as [[=] | (c & Hc & Hs)]. by apply (H c s). }
  rewrite (map_res_all _ (map (shown_value fshow))) by done. cbn [map]. do 2 f_equal.
  rewrite map_map. apply map_ext. done.
Qed.
Lemma ods_bytes {T} fshow (t : table string cval T) : (∃ g, excel_writer fshow ".ods" t = Ok g) ↔ ∀ c s, c ∈ contents t → CBytes s ∉ c.2.
Proof.
  split.
  - intros [g Hg] c s Hc Hs. unfold excel_writer in Hg. rewrite gen_spec in Hg. cbn [res_bind] in Hg.
    rewrite bool_decide_eq_true_2 in Hg by (rewrite !elem_of_cons; tauto).
    destruct (rows_elem _ _ _ Hc Hs) as (r & Hr & Hx).
    assert (∃ g, JsonTable.map_res (JsonTable.map_res (old_format_value fshow)) (map (λ n, CStr (txt n)) t.*1 :: rows CNone (contents t)) = Ok g) as H by eauto.
    apply map_res_ok in H. rewrite list.Forall_forall in H. specialize (H r ltac:(by right)). apply map_res_ok in H.
    rewrite list.Forall_forall in H. destruct (H _ Hx) as [y Hy]. by rewrite old_format_bytes in Hy.
  - intros H. rewrite (ods_cells fshow t H). eauto.
Qed.
Lemma ods_held {T} fshow fread (t : table string cval T) : reads_back fshow fread → plain_text fshow →
  (∀ c v, c ∈ contents t → v ∈ c.2 → py_value v ∧ ∀ s, v ≠ CBytes s) →
  ∃ g, excel_writer fshow ".ods" t = Ok (map (λ n, CStr (txt n)) t.*1 :: g) ∧ Forall2 (Forall2 (held fread)) (rows CNone (contents t)) g.
Proof.
  intros R P H. exists (map (map (shown_value fshow)) (rows CNone (contents t))). split.
  - apply ods_cells. intros c s Hc Hs. by destruct (H c _ Hc Hs) as [_ Hb]; apply (Hb s).
  - apply Forall2_fmap_r. apply Forall_Forall2_diag. rewrite list.Forall_forall. intros r Hr.
    apply Forall2_fmap_r. apply Forall_Forall2_diag. rewrite list.Forall_forall. intros v Hv.
    destruct (elem_rows _ _ _ Hr Hv) as [-> | (c & Hc & Hx)]; [by apply shown_held|].
    destruct (H c v Hc Hx). by apply shown_held.
Qed.

Lemma lengthened_map {B} (f : cval → B) (v : list (string * list cval)) c : c ∈ v →
  map (λ i, f (default CNone (c.2 !! i))) (seq 0 (nrows v)) = map f (lengthened (nrows v) c.2).
Proof.
  intros Hc. assert (length c.2 <= nrows v)%nat as L by (destruct c as [n l]; by apply (nrows_le v n l)).
  unfold lengthened. apply list_eq. intros i. change (map ?h (seq 0 (nrows v))) with (h <$> seq 0 (nrows v)). change (map f ?l) with (f <$> l). rewrite !list_lookup_fmap.
  destruct (decide (i < nrows v)%nat) as [Hi|Hi].
  - rewrite lookup_seq_lt by done. cbn. destruct (c.2 !! i) as [x|] eqn:E.
    + by rewrite (lookup_app_l_Some _ _ _ _ E).
    + rewrite lookup_app_r by by apply lookup_ge_None. rewrite lookup_replicate_2; [done|]. apply lookup_ge_None in E. lia.
  - rewrite lookup_seq_ge by lia. rewrite (lookup_ge_None_2 (c.2 ++ _)); [done|]. rewrite app_length, replicate_length. lia.
Qed.

Lemma columns_again {X B} (g : cval → xcell X) (f : xcell X → B) (v : list (string * list cval)) (d : list (string * nat)) :
  d.*1 = v.*1 → d.*2 = seq 0 (length v) →
  map (λ p, (p.1, map (λ row, f (cell_at p.2 row)) (map (map g) (rows CNone v)))) d
  = map (λ c, (c.1, map (λ x, f (g x)) (lengthened (nrows v) c.2))) v.
Proof.
  intros H1 H2. apply list_eq. intros i. change (map ?h d) with (h <$> d). change (map ?h v) with (h <$> v). rewrite !list_lookup_fmap.
  assert (length d = length v) as HL by (rewrite <- (fmap_length fst d), H1; by rewrite fmap_length).
  destruct (v !! i) as [c|] eqn:Ev.
  - destruct (d !! i) as [p|] eqn:Ed.
    2: { apply lookup_ge_None in Ed. apply lookup_lt_Some in Ev. lia. }
    cbn [option_fmap option_map fmap]. f_equal.
    assert (p.1 = c.1) as ->. { assert (d.*1 !! i = Some p.1) as A1 by (rewrite list_lookup_fmap, Ed; done).
      assert (v.*1 !! i = Some c.1) as A2 by (rewrite (list_lookup_fmap fst v i); unfold view in *; rewrite Ev; done). congruence. }
    assert (p.2 = i) as ->. { assert (d.*2 !! i = Some p.2) as A1 by (rewrite list_lookup_fmap, Ed; done).
      rewrite H2, lookup_seq_lt in A1 by (by eapply lookup_lt_Some). by injection A1. }
    f_equal. unfold rows.
    etransitivity; [|apply (lengthened_map (λ x, f (g x)) v c); by eapply elem_of_list_lookup_2].
    rewrite !map_map. apply map_ext. intros j. unfold cell_at, row. rewrite map_map.
    change (map ?h v) with (h <$> v). rewrite list_lookup_fmap, Ev. done.
  - apply lookup_ge_None in Ev. rewrite (lookup_ge_None_2 d i) by lia. done.
Qed.

Lemma filter_everything {A} (P : A → Prop) `{∀ x, Decision (P x)} (l : list A) : (∀ x, P x) → filter P l = l.
Proof. intros HP. induction l as [|x l IH]; [done|]. rewrite filter_cons_True by done. by f_equal. Qed.

Section Again.
  Context {T : Type} `{EqDecision T} (ty : xcell cval → T) (ps : Z) (Hps : 0 < ps) (str : xcell cval → string).
  Context (stored : cval → xcell cval).

  Lemma grid_width (names : list cval) (v : list (string * list cval)) (g : cval → cval) : length names = length v →
    Forall (λ row, length row = length v) (map (map stored) (names :: map (map g) (rows CNone v))).
  Proof using.
    intros H. cbn [map]. constructor; [by rewrite map_length|]. rewrite list.Forall_forall. intros r Hr.
    apply elem_of_list_In, in_map_iff in Hr as (r1 & <- & Hr). apply in_map_iff in Hr as (r2 & <- & Hr).
    apply in_map_iff in Hr as (i & <- & _). unfold row. by rewrite !map_length.
  Qed.

  Lemma xlsx_again {U} fshow dumps loads (t : table string cval U) max_row limit : (∀ o, loads (dumps o) = o) →
    NoDup t.*1 → (∀ n, n ∈ t.*1 → header_text str (cleaned (stored (CStr (txt n)))) = n) →
    (∀ c v, c ∈ contents t → v ∈ lengthened (nrows (contents t)) c.2 → storable (λ o, zlen (dumps o)) (cleaned (stored v))) →
    Z.of_nat (nrows (contents t)) <= limit → 0 < limit →
    ∃ g, excel_writer fshow ".xlsx" t = Ok g ∧ (max_row = None ∨ max_row = Some (zlen g) →
      ∃ t' : table string (xcell cval) T,
        excel_reader ty ps str dumps loads (map (map stored) g) max_row true 0 None SkipNone 0 limit = Ok t' ∧
        contents t' = map (λ c, (c.1, map (λ v, cleaned (stored v)) (lengthened (nrows (contents t)) c.2))) (contents t)).
  Proof using Hps.
    intros Hl Hnd Hn Hst Hlim Hlim0. rewrite xlsx_cells by done. eexists. split; [done|]. intros Hmr.
    set (v := contents t) in *. set (names := map (λ n, CStr (txt n)) t.*1).
    assert (v.*1 = t.*1) as Hv1. { unfold v, contents. change (map ?h t) with (h <$> t). by rewrite <- list_fmap_compose. }
    assert (length names = length v) as Hlen. { unfold names. rewrite map_length, <- Hv1. by rewrite fmap_length. }
    pose proof (grid_width names v (λ x, x) Hlen) as Hw. rewrite (map_ext _ (λ x, x)), map_id in Hw by (intros; apply map_id).
    destruct (excel_result ty ps str dumps loads Hps Hl (map (map stored) (names :: rows CNone v)) (length v) max_row true 0 None SkipNone 0 limit
      (map stored names)) as (d & Hch & _ & Hok & _); try done.
    { destruct Hmr as [-> | ->]; [by left|right]. by rewrite map_length. }
    cbn zeta beta in Hch, Hok.
    assert (map (λ c, header_text str (cleaned c)) (map stored names) = v.*1) as Hf.
    { rewrite Hv1. unfold names. clear -Hn. induction (t.*1) as [|n l IH]; [done|]. cbn. f_equal; [apply Hn; by left|]. apply IH. intros m Hm. apply Hn. by right. }
    rewrite Hf in Hch. destruct Hch as [_ [Hd2 Hd1]]. specialize (Hd1 ltac:(by rewrite Hv1)). rewrite fmap_length in Hd2.
    set (kept := filter _ _) in Hok.
    assert (kept = map (map stored) (rows CNone v)) as Hk.
    { unfold kept. cbn [map]. change (Z.to_nat (0 + 1)) with 1%nat. change (Z.to_nat 0) with 0%nat. rewrite !drop_0. cbn [drop]. rewrite ?drop_0, take_ge.
      - by apply filter_everything.
      - rewrite map_length. unfold rows. rewrite map_length, seq_length. lia. }
    rewrite Hk in Hok. destruct Hok as (t' & Et & Hc).
    - rewrite list.Forall_forall. intros r Hr. rewrite list.Forall_forall. intros x Hx.
      apply elem_of_list_In, in_map_iff in Hx as (p & <- & Hp).
      apply elem_of_list_In, in_map_iff in Hr as (r' & <- & Hr'). apply in_map_iff in Hr' as (i & <- & Hi%in_seq).
      assert (p.2 ∈ seq 0 (length v)) as Hp2. { rewrite <- Hd2. apply elem_of_list_fmap. exists p. split; [done|by apply elem_of_list_In]. }
      apply elem_of_seq in Hp2. destruct (lookup_lt_is_Some_2 v p.2) as [c Ec]; [lia|].
      unfold cell_at, row. rewrite map_map. change (map ?h v) with (h <$> v). rewrite list_lookup_fmap, Ec. cbn [option_fmap option_map fmap default].
      apply (Hst c); [by eapply elem_of_list_lookup_2|].
      assert (In (default CNone (c.2 !! i)) (map (λ x, x) (lengthened (nrows v) c.2))) as HI.
      { rewrite <- (lengthened_map (λ x, x) v c) by by eapply elem_of_list_lookup_2. apply in_map_iff. exists i. split; [done|]. apply in_seq. lia. }
      rewrite map_id in HI. by apply elem_of_list_In.
    - exists t'. split; [done|]. rewrite Hc. rewrite (columns_again stored cleaned v d) by done. done.
  Qed.

  Lemma ods_again {U} fshow (t : table string cval U) limit :
    NoDup t.*1 → (∀ n, n ∈ t.*1 → header_text str (stored (CStr (txt n))) = n) →
    (∀ c s, c ∈ contents t → CBytes s ∉ c.2) →
    Z.of_nat (nrows (contents t)) <= limit → 0 < limit →
    ∃ g (t' : table string (xcell cval) T), excel_writer fshow ".ods" t = Ok g ∧
      ods_reader ty ps str (map (map stored) g) true 0 None SkipNone 0 limit = Ok t' ∧
      contents t' = map (λ c, (c.1, map (λ v, stored (shown_value fshow v)) (lengthened (nrows (contents t)) c.2))) (contents t).
  Proof using Hps.
    intros Hnd Hn Hb Hlim Hlim0. rewrite ods_cells by done.
    set (v := contents t) in *. set (names := map (λ n, CStr (txt n)) t.*1).
    assert (v.*1 = t.*1) as Hv1. { unfold v, contents. change (map ?h t) with (h <$> t). by rewrite <- list_fmap_compose. }
    assert (length names = length v) as Hlen. { unfold names. rewrite map_length, <- Hv1. by rewrite fmap_length. }
    pose proof (grid_width names v (shown_value fshow) Hlen) as Hw.
    destruct (ods_result ty ps str Hps (map (map stored) (names :: map (map (shown_value fshow)) (rows CNone v))) (length v) true 0 None SkipNone 0 limit
      (map stored names)) as (t' & d & Et & Hch & Hdd & Hc); try done; [by left|].
    cbn zeta beta in Hch, Hdd, Hc.
    assert (map (header_text str) (map stored names) = v.*1) as Hf.
    { rewrite Hv1. unfold names. clear -Hn. induction (t.*1) as [|n l IH]; [done|]. cbn. f_equal; [apply Hn; by left|]. apply IH. intros m Hm. apply Hn. by right. }
    rewrite Hf in Hch, Hdd. destruct Hch as [_ Hd2]. specialize (Hdd eq_refl).
    assert (d.*1 = v.*1) as Hd1. { rewrite ExportProofs.dedup_distinct in Hdd by (by rewrite Hv1). by injection Hdd. }
    assert (d.*2 = seq 0 (length v)) as Hd2'.
    { rewrite Hd2, fmap_length. by apply filter_everything. }
    eexists _, t'. split; [done|]. split; [exact Et|]. rewrite Hc.
    rewrite <- (columns_again (λ x, stored (shown_value fshow x)) (λ x, x) v d) by done.
    apply map_ext. intros p. f_equal. cbn [map]. change (Z.to_nat (0 + 1)) with 1%nat. cbn [drop]. rewrite ?drop_0, map_map.
    rewrite (map_ext (λ x, map stored (map (shown_value fshow) x)) (map (λ x, stored (shown_value fshow x)))) by (intros; apply map_map).
    f_equal. rewrite take_ge.
    - by apply filter_everything.
    - etransitivity; [apply filter_length|]. rewrite map_length. unfold rows. rewrite map_length, seq_length. lia.
  Qed.
End Again.

Lemma ods_again_held {T U} `{EqDecision T} (ty : xcell cval → T) ps str stored fshow fread (t : table string cval U) limit : 0 < ps →
  reads_back fshow fread → plain_text fshow → (∀ c v, c ∈ contents t → v ∈ c.2 → py_value v ∧ ∀ s, v ≠ CBytes s) →
  NoDup t.*1 → (∀ n, n ∈ t.*1 → header_text str (stored (CStr (txt n))) = n) →
  Z.of_nat (nrows (contents t)) <= limit → 0 < limit →
  ∃ g (t' : table string (xcell cval) T), excel_writer fshow ".ods" t = Ok g ∧
    ods_reader ty ps str (map (map stored) g) true 0 None SkipNone 0 limit = Ok t' ∧
    Forall2 (λ c r, r.1 = c.1 ∧ Forall2 (λ v x, ∃ w, held fread v w ∧ x = stored w) (lengthened (nrows (contents t)) c.2) r.2)
      (contents t) (contents t').
Proof.
  intros Hps R P Hv Hnd Hn Hl Hl0.
  destruct (ods_again ty ps Hps str stored fshow t limit Hnd Hn) as (g & t' & E1 & E2 & E3); try done.
  { intros c s Hc Hs. destruct (Hv c _ Hc Hs) as [_ Hb]. by apply (Hb s). }
  exists g, t'. split; [done|]. split; [done|]. rewrite E3. apply Forall2_fmap_r. apply Forall_Forall2_diag.
  rewrite list.Forall_forall. intros c Hc. cbn. split; [done|]. apply Forall2_fmap_r. apply Forall_Forall2_diag.
  rewrite list.Forall_forall. intros v Hx. exists (shown_value fshow v). split; [|done].
  apply elem_of_app in Hx as [Hx | Hx].
  - destruct (Hv c v Hc Hx). by apply shown_held.
  - apply elem_of_replicate in Hx as [-> _]. by apply shown_held.
Qed.

Lemma sheet_rows {T} fshow suffix parent_exists (t : table string cval T) :
  to_sheet fshow ".xlsx" suffix parent_exists t =
  if bool_decide (suffix = ".xlsx"%string) then
    if parent_exists then Ok (map (λ n, CStr (txt n)) t.*1 :: rows CNone (contents t)) else Err OtherError
  else Err ValueError.
Proof.
  unfold to_sheet. case_bool_decide as E; cbn [negb]; [|done]. destruct parent_exists; [|done]. cbn [negb]. subst. by apply xlsx_cells.
Qed.
