(** Dialect characters, page numbers, and inputs on which the text reader loses
    or changes data. *)
From Verif.Spec Require Import PyList.
From Verif.Model Require Import Csv TextImport.
From Verif.Proof Require Import CsvProofs CsvScan.
Local Open Scope Z_scope.

Lemma show_plain f : NL ∉ f → TAB ∉ f → show_breaks f = f.
Proof.
  intros Hn Ht. unfold show_breaks.
  induction f as [|c f IH]; [done|]. cbn [mbind list_bind]. apply not_elem_of_cons in Hn as [? ?], Ht as [? ?].
  rewrite !decide_False by done. cbn [app]. f_equal. by apply IH.
Qed.

Definition bytes : list Z := seqZ 0 256.
Lemma dialect_bytes : forallb (λ c, bool_decide (dialect_char c =
    if bool_decide (32 <= c <= 126 ∧ c ≠ 39 ∨ c = 9 ∨ c = 10) then Some c else None)) bytes = true.
Proof. vm_compute. reflexivity. Qed.
Lemma dialect_char_spec c : 0 <= c < 256 →
  (32 <= c <= 126 ∧ c ≠ 39 ∨ c = 9 ∨ c = 10 → dialect_char c = Some c) ∧
  (¬ (32 <= c <= 126 ∧ c ≠ 39 ∨ c = 9 ∨ c = 10) → dialect_char c = None).
Proof.
  intros Hc. pose proof dialect_bytes as H. rewrite forallb_forall in H.
  specialize (H c). rewrite <- elem_of_list_In in H. specialize (H ltac:(apply elem_of_seqZ; lia)).
  apply bool_decide_eq_true in H. rewrite H. split; intros E.
  - by rewrite bool_decide_true.
  - by rewrite bool_decide_false.
Qed.

Lemma next_page_spec fuel ex idx : match next_page fuel ex idx with
  | Some i => (idx <= i)%N ∧ ex i = false ∧ ∀ j, (idx <= j < i)%N → ex j = true
  | None => ∀ j, (idx <= j <= idx + N.of_nat fuel)%N → ex j = true
  end.
Proof.
  revert idx. induction fuel as [|fuel IH]; intros idx; cbn [next_page]; destruct (ex idx) eqn:E.
  - intros j Hj. replace j with idx by lia. done.
  - split; [lia|]. split; [done|]. intros; lia.
  - specialize (IH (idx + 1)%N). destruct (next_page fuel ex (idx + 1)).
    + destruct IH as (H1 & H2 & H3). split; [lia|]. split; [done|]. intros j Hj.
      destruct (decide (j = idx)) as [->|]; [done|]. apply H3. lia.
    + intros j Hj. destruct (decide (j = idx)) as [->|]; [done|]. apply IH. lia.
  - split; [lia|]. split; [done|]. intros; lia.
Qed.
Lemma page_numbers_spec fuel ex bound : (∀ j, (bound <= j)%N → ex j = false) → (N.to_nat bound <= fuel)%nat →
  ∀ n idx, ∃ l, page_numbers fuel ex idx n = Some l ∧ length l = n ∧ NoDup l ∧
    Forall (λ i, (idx <= i)%N ∧ ex i = false) l.
Proof.
  intros Hb Hf. induction n as [|n IH]; intros idx; cbn [page_numbers].
  { exists []. repeat split; try constructor. }
  pose proof (next_page_spec fuel ex idx) as Hnp. destruct (next_page fuel ex idx) as [i|].
  - destruct Hnp as (H1 & H2 & _). cbn [mbind option_bind]. destruct (IH (i + 1)%N) as (l & -> & Hlen & Hnd & Hall).
    cbn [mbind option_bind]. exists (i :: l). split; [done|]. split; [cbn; lia|]. split.
    + apply list.NoDup_cons. split; [|done]. intros Hi.
      pose proof (proj1 (list.Forall_forall _ _) Hall i Hi) as H. cbn beta in H. lia.
    + constructor; [done|]. eapply list.Forall_impl; [exact Hall|]. cbn beta. intros j [? ?]. split; [lia|done].
  - exfalso. specialize (Hnp (idx + N.of_nat fuel)%N ltac:(lia)). rewrite Hb in Hnp by lia. done.
Qed.

(** Fields that do not survive: a newline, a tab, a backslash, a long field. *)
Lemma roundtrip_newline : parse_csv (tablite_dialect 44 (Some 34) false) (write_rows 44 34 [[(true, [97; NL; 98])]])
  = ([[[97; BACKSLASH; 110; 98]]], true).
Proof. vm_compute. reflexivity. Qed.
Lemma roundtrip_tab : parse_csv (tablite_dialect 44 (Some 34) false) (write_rows 44 34 [[(false, [97; TAB])]])
  = ([[[97; BACKSLASH; 116]]], true).
Proof. vm_compute. reflexivity. Qed.
Lemma roundtrip_backslash : parse_csv (tablite_dialect 44 (Some 34) false) (write_rows 44 34 [[(false, [97; BACKSLASH; 98])]])
  = ([[[97; 98]]], true).
Proof. vm_compute. reflexivity. Qed.
Lemma quoting_refuted : ¬ ∀ rows, well_quoted 44 34 rows →
  parse_csv (tablite_dialect 44 (Some 34) false) (write_rows 44 34 rows) = (map (map snd) rows, true).
Proof.
  intros H. specialize (H [[(true, [97; NL; 98])]]). rewrite roundtrip_newline in H.
  cut (@Some (list (list (list Z)) * bool) ([[[97; BACKSLASH; 110; 98]]], true) = Some ([[[97; NL; 98]]], true)); [discriminate|].
  f_equal. apply H. intros row Hr. apply elem_of_list_singleton in Hr as ->. split; [done|].
  intros x Hx. apply elem_of_list_singleton in Hx as ->. done.
Qed.

(** The record a missing closing quote swallows. *)
Lemma text_lost : ∃ text offs n, find_newlines (tablite_dialect 44 (Some 34) false) text = Some (offs, n) ∧
  list.last offs ≠ Some (Z.of_nat (length text)).
Proof.
  exists [97; NL; 98; 44; 34; 99; NL; 100; NL], [0; 2], 1. vm_compute. split; [reflexivity|congruence].
Qed.

Lemma quoting_actual : ∀ dia strip d q e rows,
  delimiter dia = d → quotechar dia = q → escapechar dia = e → doublequote dia = true →
  d_quoting dia ≠ QUOTE_NONE ∧ d_quoting dia ≠ QUOTE_NONNUMERIC →
  skipinitialspace dia = strip ∧ skiptrailingspace dia = strip →
  d ≠ q ∧ d ≠ e ∧ q ≠ e → d ≠ NL ∧ d ≠ CR ∧ q ≠ NL ∧ q ≠ CR ∧ e ≠ NL →
  (strip = true → d ≠ SPACE ∧ q ≠ SPACE) →
  well_quoted d q rows →
  (∀ row x, row ∈ rows → x ∈ row → e ∉ x.2 ∧ Z.of_nat (length x.2) <= 128 * 1024) →
  parse_csv dia (write_rows d q rows) =
  (map (map (λ x, show_breaks (stripped strip x.1 (crlf_to_lf x.2)))) rows, true).
Proof.
  intros dia strip d q e rows Hd Hq He Hdq Hquo Hskip Hdist Hcr Hsp Hw Hf.
  etrans; [apply (rows_spec dia strip d q e); try done; [apply Hquo|]|].
  2: { f_equal. apply map_ext. intros row. apply map_ext. intros x. unfold seen, shown. by rewrite decide_False by apply Hquo. }
  intros row Hr. destruct (Hw row Hr) as [Hne Hbare]. split; [exact Hne|]. intros x Hx.
  destruct (Hf row x Hr Hx). split; [by apply Hbare|]. split; [by intros _; apply Hquo|]. by split.
Qed.
Lemma quoting_plain : ∀ d q rows,
  d ≠ q ∧ d ≠ BACKSLASH ∧ q ≠ BACKSLASH → d ≠ NL ∧ d ≠ CR ∧ q ≠ NL ∧ q ≠ CR →
  well_quoted d q rows →
  (∀ row x, row ∈ rows → x ∈ row →
    (NL ∉ x.2 ∧ TAB ∉ x.2 ∧ BACKSLASH ∉ x.2) ∧ Z.of_nat (length x.2) <= 128 * 1024) →
  parse_csv (tablite_dialect d (Some q) false) (write_rows d q rows) = (map (map snd) rows, true).
Proof.
  intros d q rows Hdist Hcr Hw Hf. destruct Hcr as (? & ? & ? & ?).
  etrans; [apply (quoting_actual (tablite_dialect d (Some q) false) false d q BACKSLASH); try done|].
  - intros row x Hr Hx. destruct (Hf row x Hr Hx) as [(? & ? & ?) ?]. done.
  - f_equal. clear Hw. induction rows as [|row rows IH]; [done|]. cbn [map]. f_equal.
    + assert (∀ x, x ∈ row → NL ∉ x.2 ∧ TAB ∉ x.2) as Hx.
      { intros x Hx. destruct (Hf row x ltac:(set_solver) Hx) as [(? & ? & ?) ?]. done. }
      clear Hf IH. induction row as [|x row IHr]; [done|]. cbn [map]. f_equal.
      * destruct (Hx x ltac:(set_solver)). unfold stripped. rewrite crlf_to_lf_id by done. by apply show_plain.
      * apply IHr. intros y Hy. apply Hx. set_solver.
    + apply IH. intros row' x Hr Hx. apply (Hf row'); set_solver.
Qed.
