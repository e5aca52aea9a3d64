(** Tables written to text files and read again (C85). *)
From Coq Require Import String Ascii.
From Verif.Spec Require Import Export.
From Verif.Proof Require Import CsvProofs CsvScan TextMisc NamesProofs NpyProofs CastTexts GuessImportProofs InferProofs TableBase.
Local Open Scope list_scope.
Local Open Scope Z_scope.

(** * Line ends *)
Lemma evs_app_nl l r : evs (l ++ NL :: r) = evs (l ++ [NL]) ++ evs r.
Proof.
  induction l as [|c l IH]; [done|]. cbn [app].
  destruct (decide (c = NL)) as [->|Hc]; [rewrite !evs_nl, IH; done|].
  destruct (decide (c = CR ∧ head (l ++ [NL]) = Some NL)) as [[-> Hh]|Hn].
  - destruct l as [|c' l].
    + cbn [app]. rewrite !evs_crlf. exact IH.
    + cbn in Hh. injection Hh as ->. cbn [app] in *. rewrite !evs_crlf. exact IH.
  - rewrite !evs_ch; [cbn [app]; by rewrite IH|done| |done|].
    + intros -> Hh. by apply Hn.
    + intros -> Hh. apply Hn. split; [done|]. by destruct l.
Qed.
Lemma evs_crlf_end l r : list.last l ≠ Some CR → evs (l ++ CR :: NL :: r) = evs (l ++ NL :: r).
Proof.
  induction l as [|c l IH]; intros Hl; [apply evs_crlf|].
  destruct (decide (c = NL)) as [->|Hc].
  { cbn [app]. rewrite !evs_nl, IH; [done|]. by destruct l. }
  destruct l as [|c' l].
  - cbn in Hl. cbn [app]. rewrite (evs_ch c (CR :: _)), (evs_ch c (NL :: _)); [by rewrite evs_crlf|done|congruence|done|done].
  - assert (list.last (c' :: l) ≠ Some CR) as Hl' by done.
    destruct (decide (c = CR ∧ c' = NL)) as [[-> ->]|Hn].
    + cbn [app] in *. rewrite !evs_crlf. by apply IH.
    + cbn [app] in *. rewrite !(evs_ch c); [by rewrite IH|done| |done|]; intros -> [= ->]; by apply Hn.
Qed.

(** * The csv module *)
Definition quoted_row (d : chr) (fields : list (list chr)) : list (bool * list chr) :=
  map (λ f, (to_be_quoted d (bool_decide (length fields = 1%nat)) f, f)) fields.
Lemma csv_field_write d alone f : csv_field d alone f = write_field 34 (to_be_quoted d alone f, f).
Proof.
  unfold csv_field, write_field. cbn [fst snd]. destruct (to_be_quoted d alone f); [|done].
  do 2 f_equal. unfold double_quotes. induction f as [|c f IH]; [done|]. cbn [map concat mbind list_bind].
  change (List.concat ?l) with (concat l) in *. rewrite IH. f_equal. case_decide; [by subst|]. by destruct (Z.eqb_spec c 34).
Qed.
Lemma join_write d (xs : list (bool * list chr)) : csv_join d (map (write_field 34) xs) = write_row d 34 xs.
Proof.
  induction xs as [|x xs IH]; [done|]. destruct xs as [|y xs]; [done|]. cbn [map csv_join write_row] in *. by rewrite IH.
Qed.
Lemma writerow_write d fields : writerow d fields = write_row d 34 (quoted_row d fields) ++ [CR; NL].
Proof.
  unfold writerow. f_equal. rewrite <- join_write. unfold quoted_row. rewrite map_map. f_equal. apply map_ext.
  intros f. apply csv_field_write.
Qed.
Lemma to_be_quoted_bare d alone f : to_be_quoted d alone f = false ↔ may_be_bare d 34 f ∧ (alone = true → f ≠ []).
Proof.
  unfold to_be_quoted. rewrite orb_false_iff, andb_false_iff, bool_decide_eq_false.
  assert (existsb (λ c, (c =? d) || (c =? 34) || (c =? 13) || (c =? 10)) f = false ↔ may_be_bare d 34 f) as ->.
  { rewrite <- not_true_iff_false, existsb_exists. unfold may_be_bare, NL, CR. split.
    - intros H. split_and!; intros Hin; apply H; eexists; (split; [by apply elem_of_list_In|]);
        rewrite Z.eqb_refl; rewrite ?orb_true_r; done.
    - intros (H1 & H2 & H3 & H4) (c & Hin%elem_of_list_In & Hc). rewrite !orb_true_iff, !Z.eqb_eq in Hc. naive_solver. }
  destruct alone; naive_solver.
Qed.

Lemma last_app_ne {A} (l k : list A) : k ≠ [] → list.last (l ++ k) = list.last k.
Proof. intros H. destruct k as [|x k _] using rev_ind; [done|]. by rewrite app_assoc, !last_snoc. Qed.
Lemma write_row_last d (xs : list (bool * list chr)) : d ≠ CR → (∀ x, x ∈ xs → x.1 = false → CR ∉ x.2) →
  list.last (write_row d 34 xs) ≠ Some CR.
Proof.
  intros Hd. induction xs as [|x xs IH]; intros H; [done|].
  assert (list.last (write_field 34 x) ≠ Some CR) as Hx.
  { destruct x as [b f]. unfold write_field. cbn [fst snd]. destruct b.
    - cbn [app]. change (34 :: ?l ++ [34]) with ((34 :: l) ++ [34]). by rewrite last_snoc.
    - intros E. apply (H (false, f) ltac:(set_solver) eq_refl). cbn.
      apply last_Some in E as (f' & ->). set_solver. }
  destruct xs as [|y xs]; [done|]. specialize (IH ltac:(intros; apply H; set_solver)).
  change (write_row d 34 (x :: y :: xs)) with (write_field 34 x ++ d :: write_row d 34 (y :: xs)).
  rewrite last_app_ne by done. destruct (write_row d 34 (y :: xs)) as [|c l] eqn:E; [cbn; congruence|]. exact IH.
Qed.

Definition text_of (d : chr) (rows : list (list (list chr))) : list chr := concat (map (writerow d) rows).
Lemma text_of_evs d rows : d ≠ CR → evs (text_of d rows) = evs (write_rows d 34 (map (quoted_row d) rows)).
Proof.
  intros Hd. induction rows as [|row rows IH]; [done|]. unfold text_of, write_rows in *.
  cbn [map concat mbind list_bind]. rewrite writerow_write, <- !app_assoc. cbn [app].
  rewrite evs_crlf_end.
  - rewrite evs_app_nl, IH, <- evs_app_nl. done.
  - apply write_row_last; [done|]. intros x Hx Hb. unfold quoted_row in Hx. apply elem_of_list_fmap in Hx as (f & -> & _).
    cbn in Hb. apply to_be_quoted_bare in Hb as [(_ & _ & _ & ?) _]. done.
Qed.
Lemma text_of_last d rows : text_of d rows ≠ [] → list.last (text_of d rows) = Some NL.
Proof.
  intros Hne. destruct rows as [|row rows _] using rev_ind; [done|]. unfold text_of. rewrite map_app, concat_app.
  cbn [map concat]. rewrite app_nil_r. unfold writerow.
  rewrite app_assoc, last_app_ne; done.
Qed.

Lemma stripped_id strip b f : trimmed strip f → stripped strip b f = f.
Proof.
  intros H. unfold stripped. destruct strip; [|done]. destruct (H eq_refl) as [Hh Hl].
  assert ((if b then f else drop_while (λ c, c = SPACE) f) = f) as ->.
  { destruct b; [done|]. destruct f as [|c f]; [done|]. cbn. rewrite decide_False; [done|]. by intros ->. }
  destruct f as [|c f _] using rev_ind; [done|]. rewrite reverse_app. cbn [reverse rev_append app].
  change (reverse [c]) with [c]. cbn [app drop_while]. rewrite last_snoc in Hl. rewrite decide_False by (by apply Hl).
  change (c :: reverse f) with ([c] ++ reverse f). by rewrite reverse_app, reverse_involutive.
Qed.

Lemma parse_text quotes strip d rows : d = 44 ∨ d = 9 ∨ d = 124 →
  (∀ row, row ∈ rows → row ≠ [] ∧ ∀ f, f ∈ row → comes_back quotes strip d (bool_decide (length row = 1%nat)) f) →
  parse_csv (tablite_dialect d (if quotes then Some 34 else None) strip) (text_of d rows) = (rows, true).
Proof.
  intros Hd H. set (dia := tablite_dialect d (if quotes then Some 34 else None) strip).
  rewrite parse_csv_evs by (apply text_of_last). rewrite text_of_evs by (unfold CR; lia).
  assert (∀ quoted, quoted ≠ [] → list.last (write_rows d 34 quoted) = Some NL) as Hl.
  { intros quoted Hq. destruct quoted as [|row q' _] using rev_ind; [done|].
    unfold write_rows. rewrite bind_app. cbn. rewrite app_nil_r, app_assoc, last_snoc. done. }
  rewrite <- parse_csv_evs.
  2: { intros Hne. apply Hl. intros E. apply Hne. by rewrite E. }
  assert (d_quoting dia = QUOTE_NONE ↔ quotes = false) as Hq by (by destruct quotes).
  rewrite (rows_spec dia strip d 34 BACKSLASH); unfold NL, CR, SPACE, BACKSLASH; try done; try lia.
  - f_equal. rewrite map_map. clear Hl. induction rows as [|row rows IH]; [done|]. cbn [map]. f_equal.
    + specialize (H row ltac:(set_solver)) as [_ H]. unfold quoted_row. rewrite map_map. clear IH rows.
      set (alone := bool_decide _) in *. clearbody alone.
      induction row as [|f row IH]; [done|]. cbn [map]. f_equal; [|apply IH; intros; apply H; set_solver].
      destruct (H f ltac:(set_solver)) as (_ & _ & Ht & Hf). unfold seen. cbn [fst snd].
      assert (NL ∉ f) as Hn by (destruct quotes; [by destruct Hf|by destruct Hf as [(_ & _ & ? & _) _]]).
      rewrite crlf_to_lf_id, stripped_id by done. unfold shown. case_decide as E; [done|].
      destruct quotes; [|by destruct E; apply Hq]. apply show_plain; tauto.
    + apply IH. intros; apply H; set_solver.
  - by destruct quotes.
  - by destruct quotes.
  - intros row' Hr. apply elem_of_list_fmap in Hr as (row & -> & Hr). destruct (H row Hr) as [Hne Hf].
    split; [by destruct row|]. intros x Hx. unfold quoted_row in Hx. apply elem_of_list_fmap in Hx as (f & -> & Hf').
    destruct (Hf f Hf') as (H1 & H2 & H3 & H4). unfold good. cbn [fst snd].
    split; [intros Hb; by apply to_be_quoted_bare in Hb as [? _]|]. split; [|done].
    intros Hb E%Hq. subst quotes. apply to_be_quoted_bare in H4. congruence.
Qed.

(** * Names *)
Lemma string_of_bytes s : string_of (bytes_of s) = s.
Proof.
  induction s as [|a s IH]; [done|]. cbn [bytes_of string_of]. rewrite N2Z.id, ascii_N_embedding. by rewrite IH.
Qed.
Lemma stripEscape_id s : BACKSLASH ∉ s → TAB ∉ s → NL ∉ s → CR ∉ s → stripEscape s = s.
Proof.
  induction s as [|c s IH]; intros H1 H2 H3 H4; [done|].
  apply not_elem_of_cons in H1 as [? ?], H2 as [? ?], H3 as [? ?], H4 as [? ?]. unfold BACKSLASH, TAB, NL, CR in *.
  cbn [stripEscape]. rewrite (proj2 (Z.eqb_neq c 9)), (proj2 (Z.eqb_neq c 10)), (proj2 (Z.eqb_neq c 13)) by lia. cbn [orb].
  destruct s as [|c' s]; [done|]. rewrite (proj2 (Z.eqb_neq c 92)) by lia. cbn [andb]. by rewrite IH.
Qed.
Lemma dedup_distinct hs : NoDup hs → dedup_headers hs = Some hs.
Proof.
  intros Hnd. destruct (dedup_headers_spec hs) as (ns & -> & _ & Hl & H). f_equal.
  assert (∀ i, take i ns = take i hs) as Ht; [|specialize (Ht (length hs)); rewrite <- Hl in Ht at 1; by rewrite !take_ge in Ht by lia].
  induction i as [|i IH]; [by rewrite !take_0|].
  destruct (hs !! i) as [h|] eqn:Eh.
  - destruct (ns !! i) as [n|] eqn:En; [|apply lookup_ge_None in En; apply lookup_lt_Some in Eh; lia].
    rewrite (take_S_r _ _ n), (take_S_r _ _ h), IH by done. f_equal. f_equal. apply (H i h n Eh En).
    rewrite IH. intros Hin. apply elem_of_take in Hin as (j & Hj & Hlt).
    pose proof (NoDup_lookup _ _ _ _ Hnd Hj Eh). lia.
  - apply lookup_ge_None in Eh. rewrite !take_ge in * by lia. done.
Qed.

(** * Values *)
Definition simple_char (c : Z) : Prop := 45 <= c <= 58 ∨ 65 <= c <= 90 ∨ 97 <= c <= 122.
Lemma simple_comes quotes strip d alone f : d = 44 ∨ d = 9 ∨ d = 124 →
  Forall simple_char f → f ≠ [] → zlen f <= 128 * 1024 → comes_back quotes strip d alone f.
Proof.
  intros Hd Hf Hne Hl.
  assert (∀ c, ¬ simple_char c → c ∉ f) as Hout by (intros c Hc Hin; apply Hc; by eapply list.Forall_forall in Hf).
  unfold simple_char in Hout. split; [done|]. split; [apply Hout; unfold BACKSLASH; lia|]. split.
  - intros _. split.
    + intros E. apply (Hout SPACE); [unfold SPACE; lia|]. destruct f; [done|]. injection E as ->. set_solver.
    + intros c E. apply last_Some in E as (f' & ->). intros Hw. apply (Hout c); [|set_solver].
      unfold white, SPACE, TAB, CR, NL in Hw. lia.
  - destruct quotes; [split; apply Hout; unfold NL, TAB; lia|]. split; [|done].
    unfold may_be_bare, NL, CR. split_and!; apply Hout; lia.
Qed.

Lemma pad_length k n : length (pad k n) = k.
Proof. revert n. induction k as [|k IH]; intros n; [done|]. cbn [pad]. rewrite app_length, IH. cbn [List.length]. lia. Qed.
Lemma pad_simple k n : Forall simple_char (pad k n).
Proof.
  revert n. induction k as [|k IH]; intros n; [constructor|]. cbn [pad]. apply list.Forall_app. split; [done|].
  apply list.Forall_singleton. unfold simple_char. pose proof (Z.mod_pos_bound n 10). lia.
Qed.
Lemma date_iso_simple d : Forall simple_char (date_isoformat d) ∧ zlen (date_isoformat d) = 10.
Proof.
  unfold date_isoformat. split.
  - rewrite !list.Forall_app. split_and!; try apply pad_simple; apply list.Forall_singleton; unfold simple_char; lia.
  - rewrite !app_length, !pad_length. done.
Qed.
Lemma time_iso_simple us : Forall simple_char (time_isoformat us) ∧ 8 <= zlen (time_isoformat us) <= 15.
Proof.
  unfold time_isoformat. split.
  - rewrite !list.Forall_app. split_and!; try apply pad_simple; try (apply list.Forall_singleton; unfold simple_char; lia).
    destruct (_ =? 0); [constructor|]. constructor; [unfold simple_char; lia|apply pad_simple].
  - rewrite !app_length, !pad_length. destruct (_ =? 0); cbn [List.length]; rewrite ?pad_length; lia.
Qed.
Lemma python_int_dec n : decimal (Z.abs n) (dec (S (Z.to_nat (Z.log2 (Z.abs n)))) (Z.abs n)) ∧
  (n ≠ 0 → head (dec (S (Z.to_nat (Z.log2 (Z.abs n)))) (Z.abs n)) ≠ Some 48).
Proof.
  destruct (dec_spec (S (Z.to_nat (Z.log2 (Z.abs n)))) (Z.abs n)) as [H1 H2]; [|lia|split; [done|intros; apply H2; lia]].
  split; [lia|]. rewrite Nat2Z.inj_succ, Z2Nat.id by (apply Z.log2_nonneg).
  destruct (decide (n = 0)) as [->|Hn]; [done|].
  pose proof (Z.log2_spec (Z.abs n) ltac:(lia)) as [_ H]. eapply Z.lt_le_trans; [exact H|].
  apply Z.pow_le_mono_l. lia.
Qed.
Lemma python_int_text n : whole_text n (python_int n).
Proof.
  destruct (python_int_dec n) as [(H1 & H2 & H3 & _) _].
  eexists _, (Z.abs n). split; [split; [exact H1|split; [exact H2|exact H3]]|].
  unfold python_int. destruct (Z.ltb_spec n 0); [right|left]; split; done || lia.
Qed.
Lemma python_int_simple n : Forall simple_char (python_int n).
Proof.
  destruct (python_int_dec n) as [(H1 & H2 & H3 & _) _]. unfold python_int. apply list.Forall_app. split.
  - destruct (n <? 0); [|constructor]. apply list.Forall_singleton; unfold simple_char; lia.
  - eapply list.Forall_impl; [exact H2|]. cbn. unfold simple_char. lia.
Qed.
Lemma python_int_length n : 1 <= zlen (python_int n) <= 2 + Z.log2 (Z.abs n).
Proof.
  destruct (python_int_dec n) as [(H1 & _) _]. unfold python_int. rewrite app_length.
  pose proof (dec_length (S (Z.to_nat (Z.log2 (Z.abs n)))) (Z.abs n)) as Hl. pose proof (Z.log2_nonneg (Z.abs n)).
  destruct (dec _ _) as [|c l] eqn:E; [done|]. cbn [List.length] in *.
  destruct (n <? 0); cbn [List.length]; lia.
Qed.

Section Values.
  Context (fshow : Z → list Z) (quotes strip : bool) (d : chr) (alone : bool).
  Hypothesis Hd : d = 44 ∨ d = 9 ∨ d = 124.

  Lemma value_comes c : value_comes_back fshow quotes strip d alone c → comes_back quotes strip d alone (txt fshow c).
  Proof.
    intros H. destruct c as [|b|n|x|s|day|us|day us]; cbn [txt value_comes_back] in *; try done.
    - split; [done|]. split; [by apply not_elem_of_nil|]. split; [done|].
      destruct quotes; [split; by apply not_elem_of_nil|]. split; [|intros E; by rewrite H in E].
      unfold may_be_bare. split_and!; by apply not_elem_of_nil.
    - apply simple_comes; [done| |by destruct b|by destruct b].
      apply (bool_decide_unpack (Forall (λ c, 45 <= c <= 58 ∨ 65 <= c <= 90 ∨ 97 <= c <= 122) _)). by destruct b.
    - pose proof (python_int_length n). apply simple_comes; [done|apply python_int_simple| |lia].
      intros E. rewrite E in *. cbn in *. lia.
    - destruct (date_iso_simple day) as [H1 H2]. apply simple_comes; [done|done| |lia]. intros E. by rewrite E in H2.
    - destruct (time_iso_simple us) as [H1 H2]. apply simple_comes; [done|done| |lia]. intros E. rewrite E in H2. cbn in H2. lia.
    - destruct (time_iso_simple us) as [H1 H2], (date_iso_simple day) as [H3 H4]. apply simple_comes; [done| | |].
      + rewrite !list.Forall_app. split_and!; [done| |done]. apply list.Forall_singleton; unfold simple_char; lia.
      + intros E. apply (f_equal length) in E. rewrite !app_length in E. cbn [List.length] in E. lia.
      + rewrite !app_length. cbn [List.length]. lia.
  Qed.
End Values.

Lemma date_iso_text day : python_date day → date_text Iso 45 day (date_isoformat day).
Proof.
  intros [Hy [Hm Hd]]. assert (month_days (yy day) (mm day) <= 31) by (unfold month_days; repeat case_match; lia).
  exists (pad 4 (yy day)), (pad 2 (mm day)), (pad 2 (dd day)). split; [apply pad_number; simpl; lia|].
  split; [apply (pad_number 1); simpl; lia|]. split; [apply (pad_number 1); simpl; lia|]. done.
Qed.
Lemma time_iso_text us : 0 <= us < us_per_day → clock us (time_isoformat us).
Proof.
  intros B. unfold time_isoformat. unfold us_per_day in B. set (s := us / 1000000).
  assert (us = ((s / 3600 * 60 + s / 60 mod 60) * 60 + s mod 60) * 1000000 + us mod 1000000) as E
    by (unfold s; Z.div_mod_to_equations; lia).
  destruct (Z.eqb_spec (us mod 1000000) 0) as [E0|E0].
  - rewrite app_nil_r. rewrite E, E0, Z.add_0_r at 1.
    apply clock_hms; apply pad_number; simpl; unfold s; Z.div_mod_to_equations; lia.
  - rewrite E at 1. apply clock_micro; apply pad_number; simpl; unfold s; Z.div_mod_to_equations; lia.
Qed.
Lemma head_bound ds : Forall digit ds → ds ≠ [] → head ds ≠ Some 48 → 10 ^ (zlen ds - 1) <= digits_value ds.
Proof.
  intros H Hne Hh. destruct ds as [|c ds]; [done|]. apply list.Forall_cons in H as [Hc H].
  rewrite digits_cons. pose proof (digits_bound ds H). unfold digit in Hc.
  assert (c ≠ 48) by (intros ->; done). cbn [List.length]. replace (Z.of_nat (S (length ds)) - 1) with (zlen ds) by lia.
  pose proof (Z.pow_pos_nonneg 10 (zlen ds) ltac:(lia) ltac:(lia)). nia.
Qed.
Lemma python_int_compact n : - 10 ^ 6 < n < 10 ^ 7 ∨ 10 ^ 10 <= n ∨ n <= - 10 ^ 9 → not_compact (python_int n).
Proof.
  intros H. unfold not_compact. destruct (decide (n = 0)) as [->|Hn]; [left; done|].
  destruct (python_int_dec n) as [(H1 & H2 & H3 & _) H4]. specialize (H4 Hn). unfold python_int.
  set (ds := dec _ _) in *. clearbody ds. pose proof (head_bound ds H2 H1 H4) as Lo. pose proof (digits_bound ds H2) as Hi.
  rewrite H3 in Lo, Hi. rewrite app_length, Nat2Z.inj_add.
  assert (∀ k, 0 <= k → Z.abs n < 10 ^ k → zlen ds <= k) as Hup.
  { intros k Hk Hlt. destruct (Z.le_gt_cases (zlen ds) k); [done|].
    assert (10 ^ k <= 10 ^ (zlen ds - 1)) by (apply Z.pow_le_mono_r; lia). lia. }
  assert (∀ k, 0 <= k → 10 ^ k <= Z.abs n → k < zlen ds) as Hdown.
  { intros k Hk Hle. destruct (Z.le_gt_cases (zlen ds) k); [|done].
    assert (10 ^ zlen ds <= 10 ^ k) by (apply Z.pow_le_mono_r; lia). lia. }
  destruct (Z.ltb_spec n 0); cbn [List.length].
  - destruct H as [H|[H|H]]; [left; specialize (Hup 6); lia|lia|right; specialize (Hdown 9); lia].
  - destruct H as [H|[H|H]]; [left; specialize (Hup 7); lia|right; specialize (Hdown 10); lia|lia].
Qed.

Lemma told_field fshow parsed k c : told parsed fshow k c → field_of parsed k (Some (txt fshow c)) c.
Proof.
  intros [[Hk ->]|H]; [left; split; [done|split; [by right|done]]|]. right. exists (txt fshow c). split; [done|].
  destruct k; cbn [value_of].
  - destruct H as (day & -> & Hday). exists Iso, 45, day. split; [by apply date_iso_text|].
    split; [cbn [txt]; by rewrite (proj2 (date_iso_simple day))|]. split; [split; by left|]. split; [apply Hday|].
    split; [|done]. by intros [[?|?] _].
  - done.
  - destruct H as (day & us & -> & Hday & Hus). exists Iso, 45, day, us, day, us. split.
    { exists (date_isoformat day), [84], (time_isoformat us). split; [by apply date_iso_text|].
      split; [by rewrite (proj2 (date_iso_simple day))|]. split; [|split; [done|split; [by right; left|done]]].
      left. exists us, (time_isoformat us), 0, []. split; [by apply time_iso_text|]. split; [constructor|].
      split; [by rewrite app_nil_r|lia]. }
    split; [split; by left|]. split; [apply Hday|]. split; [by intros [[?|?] _]|]. split; [|done].
    split; [apply Hday|done].
  - destruct H as (us & -> & Hus). exists us, (time_isoformat us), 0, []. split; [by apply time_iso_text|].
    split; [constructor|]. split; [by rewrite app_nil_r|]. by rewrite Z.sub_0_r.
  - destruct H as (b & ->). exists b. split; [by destruct b|done].
  - destruct H as (n & -> & Hn & Hc). split; [|by apply python_int_compact]. exists n.
    split; [apply python_int_text|done].
  - destruct H as (x & -> & Hx & E). split; [done|]. by rewrite <- E at 1.
  - destruct H as (s & -> & Hs). done.
Qed.

(** * Tables *)
Lemma map_at {A B} (f : A → B) (l : list A) (i : nat) x : l !! i = Some x → (f <$> l) !! i = Some (f x).
Proof. intros H. by rewrite list_lookup_fmap, H. Qed.
Section Tables.
  Context {T : Type} (fshow : Z → list Z) (fa : float_arith) (t : table string cell T) (quotes strip : bool) (d : chr).
  Context (digits : nat → string) (ps : Z).
  Hypothesis Hd : d = 44 ∨ d = 9 ∨ d = 124.
  Hypothesis Hps : 0 < ps.
  Local Notation v := (contents t).
  Local Notation n := (nrows v).
  Local Notation alone := (bool_decide (length v = 1%nat)).
  Hypothesis Hne : v ≠ [].
  Hypothesis Hnd : NoDup v.*1.
  Hypothesis Hnames : ∀ name, name ∈ v.*1 → name_comes_back quotes strip d alone (bytes_of name).
  Hypothesis Hvalues : ∀ c x, c ∈ v → x ∈ filled n c.2 → value_comes_back fshow quotes strip d alone x.

  Let header : list (list chr) := map bytes_of v.*1.
  Let data : list (list (list chr)) := map (map (txt fshow)) (rows CNone v).
  Let dia := tablite_dialect d (if quotes then Some 34 else None) strip.

  Lemma written : text_writer fshow d t = Ok (text_of d (header :: data)).
  Proof using Type.
    unfold text_writer. rewrite tbl_rows_spec. cbn [res_map]. f_equal. unfold text_of, header, data. cbn [map concat].
    assert (v.*1 = t.*1) as -> by (unfold contents; change (map ?f ?l) with (f <$> l); by rewrite <- list_fmap_compose).
    by rewrite !map_map.
  Qed.

  Lemma filled_length l : (length l <= n)%nat → length (filled n l) = n.
  Proof using Type. intros H. unfold filled. rewrite app_length, replicate_length. lia. Qed.
  Lemma filled_at l i : (length l <= n)%nat → (i < n)%nat → filled n l !! i = Some (default CNone (l !! i)).
  Proof using Type.
    intros Hl Hi. unfold filled. destruct (l !! i) as [x|] eqn:E; [by apply lookup_app_l_Some|].
    apply lookup_ge_None in E. rewrite lookup_app_r by done. by rewrite lookup_replicate_2 by lia.
  Qed.
  Lemma column_of c ix : v !! ix = Some c → map (λ row, row !! ix) data = map (λ x, Some (txt fshow x)) (filled n c.2).
  Proof using Type.
    intros Hc. assert (length c.2 <= n)%nat as Hl.
    { destruct c as [name l]. eapply nrows_le. by eapply elem_of_list_lookup_2. }
    unfold data, rows. rewrite !map_map. apply list_eq. intros i. change (map ?f ?l) with (f <$> l).
    rewrite !list_lookup_fmap. destruct (decide (i < n)%nat) as [Hi|Hi].
    - rewrite lookup_seq_lt, filled_at by done. cbn. unfold row. change (map ?f ?l) with (f <$> l).
      rewrite !list_lookup_fmap. match goal with |- context [?l !! ix] => replace (l !! ix) with (Some c) by (symmetry; exact Hc) end. done.
    - rewrite lookup_seq_ge by lia. rewrite lookup_ge_None_2; [done|]. rewrite filled_length by done. lia.
  Qed.

  Lemma parsed_again : parse_csv dia (text_of d (header :: data)) = (header :: data, true).
  Proof using Hd Hne Hnd Hnames Hvalues.
    apply parse_text; [done|]. intros r Hr. apply elem_of_cons in Hr as [->|Hr].
    - unfold header. split; [by destruct v|]. intros f Hf. apply elem_of_list_fmap in Hf as (name & -> & Hf).
      destruct (Hnames name Hf) as [H _]. by rewrite map_length, fmap_length.
    - unfold data in Hr. apply elem_of_list_fmap in Hr as (r' & -> & Hr). unfold rows in Hr.
      apply elem_of_list_fmap in Hr as (i & -> & Hi). apply elem_of_seq in Hi.
      unfold row. split; [by destruct v|]. intros f Hf. rewrite map_map in Hf. apply elem_of_list_fmap in Hf as (c & -> & Hc).
      rewrite !map_length. apply value_comes; [done|]. apply (Hvalues c _ Hc).
      assert (length c.2 <= n)%nat as Hl by (destruct c as [name l]; by eapply nrows_le).
      eapply elem_of_list_lookup_2. apply filled_at; [done|lia].
  Qed.

  Lemma names_again : map (λ f, string_of (stripEscape f)) header = v.*1.
  Proof using Hnames.
    unfold header. rewrite map_map. transitivity (map (λ s, s) v.*1); [|apply map_id]. apply map_ext_in.
    intros name Hin%elem_of_list_In. destruct (Hnames name Hin) as ((_ & H & _) & H1 & H2 & H3).
    by rewrite stripEscape_id, string_of_bytes.
  Qed.
  Lemma fields_again : field_names (λ f, string_of (stripEscape f)) digits true header = Some v.*1.
  Proof using Hnames Hnd. unfold field_names. rewrite names_again. by apply dedup_distinct. Qed.
  Lemma wanted_all : wanted_rows SKIP_NONE (Some 0) None true 0 (header :: data) = data.
  Proof using Type.
    unfold wanted_rows, chosen_rows. cbn [drop Z.to_nat Z.add default Pos.to_nat Pos.iter_op].
    change (drop _ _) with data. assert (∀ l : list (list (list chr)), filter (kept SKIP_NONE) l = l) as H; [|apply H].
    induction l as [|r l IH]; [done|]. rewrite filter_cons_True by done. by rewrite IH.
  Qed.

  Lemma fst_at i c : v !! i = Some c → v.*1 !! i = Some c.1.
  Proof using Type. exact (map_at fst v i c). Qed.
  Lemma snd_at i c : v !! i = Some c → v.*2 !! i = Some c.2.
  Proof using Type. exact (map_at snd v i c). Qed.

  (** the columns one by one *)
  Lemma imported_again (tbl : list (string * list (list cell))) (f : string * list cell → list cell) :
    tbl.*1 = v.*1 → length tbl = length v →
    (∀ i name pages c, tbl !! i = Some (name, pages) → v !! i = Some c → concat pages = f c) →
    imported tbl = map (λ c, (c.1, f c)) v.
  Proof using Type.
    intros Hn Hl H. apply list_eq. intros i. unfold imported. change (map ?f ?l) with (f <$> l).
    rewrite !list_lookup_fmap. destruct (tbl !! i) as [[name pages]|] eqn:E.
    - destruct (v !! i) as [c|] eqn:Ec; [|apply lookup_ge_None in Ec; apply lookup_lt_Some in E; lia].
      cbn. rewrite (H i name pages c E Ec). do 2 f_equal.
      pose proof (f_equal (.!! i) Hn) as Hi. cbn in Hi. rewrite (fst_at i c Ec), list_lookup_fmap, E in Hi. match goal with |- context [?l !! i] => replace (l !! i) with (Some c) by (symmetry; exact Ec) end. cbn in *; congruence.
    - symmetry. apply fmap_None, lookup_ge_None_2. apply lookup_ge_None in E. lia.
  Qed.

  Lemma texts_again : ∃ text tbl, text_writer fshow d t = Ok text ∧
    from_file fa false (if quotes then Some 34 else None) (Some d) strip digits ps text = Some tbl ∧
    imported tbl = map (λ c, (c.1, map (λ x, CStr (txt fshow x)) (filled n c.2))) v.
  Proof using Hd Hps Hne Hnd Hnames Hvalues.
    exists (text_of d (header :: data)). unfold from_file. change (default 44 (Some d)) with d.
    destruct (text_import_spec (λ f, string_of (stripEscape f)) digits dia (text_of d (header :: data)) None true 0 ps SKIP_NONE
      (Some 0) None (header :: data) header v.*1 v.*1 Hps ltac:(by intros i [= <-]) ltac:(done) ltac:(done) parsed_again
      eq_refl fields_again ltac:(done) ltac:(by apply dedup_distinct)) as (tbl & Htbl & Hn & Hl & Hcols).
    unfold text_import in Htbl. fold dia. rewrite Htbl. cbn [option_map]. eexists. split; [apply written|]. split; [done|].
    apply (imported_again _ (λ c, map (λ x, CStr (txt fshow x)) (filled n c.2))).
    - rewrite <- Hn. change (map ?f ?l) with (f <$> l). by rewrite <- list_fmap_compose.
    - transitivity (length tbl); [apply map_length|]. rewrite Hl. apply fmap_length.
    - intros i name pages c Hi Hc. apply list_lookup_fmap_inv in Hi as ([name' pages'] & E0 & E).
      injection E0 as -> ->.
      assert (v.*1 !! i = Some c.1) as Hsrc by (by apply fst_at).
      destruct (Hcols i name' pages' c.1 E Hsrc) as (ix & Hix & Hp & _).
      assert (ix = i) as -> by (by eapply NoDup_lookup). rewrite wanted_all in Hp.
      transitivity (map CStr (concat pages')); [symmetry; apply concat_map|].
      etransitivity; [exact (f_equal (map CStr) Hp)|].
      pose proof (f_equal (map (default [])) (column_of c i Hc)) as Hcol. rewrite !map_map in Hcol. cbn in Hcol.
      change (map (λ row, default [] (row !! i)) data = map (λ x, txt fshow x) (filled n c.2)) in Hcol.
      etransitivity; [exact (f_equal (map CStr) Hcol)|apply map_map].
  Qed.

  Lemma values_again (kinds : list column_kind) :
    Forall2 (λ k c, Forall (told (f_parse fa) fshow k) (filled n c.2)) kinds v →
    ∃ text tbl, text_writer fshow d t = Ok text ∧
      from_file fa true (if quotes then Some 34 else None) (Some d) strip digits ps text = Some tbl ∧
      imported tbl = map (λ c, (c.1, filled n c.2)) v.
  Proof using Hd Hps Hne Hnd Hnames Hvalues.
    intros Hk. exists (text_of d (header :: data)). unfold from_file. change (default 44 (Some d)) with d.
    destruct (guess_import_spec fa (λ ix, default Words (kinds !! ix)) (λ ix, default [] (filled n <$> (v.*2 !! ix)))
      (λ f, string_of (stripEscape f)) digits dia (text_of d (header :: data)) None true 0 ps SKIP_NONE
      (Some 0) None (header :: data) header v.*1 v.*1 Hps ltac:(by intros i [= <-]) ltac:(done) ltac:(done) parsed_again
      eq_refl fields_again ltac:(done) ltac:(by apply dedup_distinct)) as (tbl & Htbl & Hn & Hl & Hcols).
    { intros ix src Hix _. apply list_lookup_fmap_inv in Hix as (c & _ & Ec).
      rewrite wanted_all, (column_of c ix Ec), (snd_at ix c Ec). cbn [fmap option_fmap option_map default].
      destruct (Forall2_lookup_r _ _ _ _ _ Hk Ec) as (k & -> & Hf). cbn [default].
      change (map ?f ?l) with (f <$> l). apply Forall2_fmap_l. apply Forall_Forall2_diag.
      eapply list.Forall_impl; [exact Hf|]. intros x. apply told_field. }
    { cbv zeta. intros i Hp. destruct (page_rows _ _ _) as [|r l]; [done|]. by left. }
    fold dia. exists tbl. split; [apply written|]. split; [exact Htbl|].
    apply (imported_again _ (λ c, filled n c.2)); [done|rewrite Hl; apply fmap_length|].
    intros i name pages c Hi Hc.
    assert (v.*1 !! i = Some c.1) as Hsrc by (by apply fst_at).
    destruct (Hcols i name pages c.1 Hi Hsrc) as (ix & Hix & Hp).
    assert (ix = i) as -> by (by eapply NoDup_lookup). by rewrite (snd_at i c Hc) in Hp.
  Qed.
End Tables.
