(** Proofs for Props/Expressions.v. *)
From Coq Require Import Ascii String.
From stdpp Require Import strings.
From Verif.Spec Require Import Base.
From Verif.Model Require Import Expressions.
From Verif.Proof Require Import SliceLemmas ColumnRead DictLemmas SmallProofs TableBase FilterProofs TableSelect TableMisc RepaginateProofs ReduxProofs.
Local Open Scope string_scope.
Local Open Scope list_scope.

(** ** parts of a text *)
Lemma prefix_ok n e : String.prefix n e = true ↔ ∃ b, e = n +:+ b.
Proof.
  revert e. induction n as [|c n IH]; intros e.
  - split; [intros _; by exists e|by destruct e].
  - destruct e as [|d e]; cbn [String.prefix].
    + split; [done|intros (b & Hb)]. discriminate Hb.
    + destruct (ascii_dec c d) as [->|Hcd].
      * rewrite IH. split; intros (b & Hb); exists b.
        -- by rewrite Hb.
        -- by injection Hb.
      * split; [done|]. intros (b & Hb). injection Hb as -> _. done.
Qed.

Lemma occurs_ok n e : occurs n e = true ↔ part_of n e.
Proof.
  induction e as [|c e IH]; cbn [occurs]; rewrite orb_true_iff, prefix_ok.
  - split.
    + intros [(b & Hb)|]; [|done]. by exists "", b.
    + intros (a & b & H). left. exists b. destruct a; [exact H|discriminate H].
  - rewrite IH. split.
    + intros [(b & Hb)|(a & b & H)]; [by exists "", b|]. exists (String c a), b. by rewrite H.
    + intros (a & b & H). destruct a as [|d a]; [left; by exists b|].
      right. injection H as -> H. by exists a, b.
Qed.

Lemma req_in columns e x : x ∈ req_columns columns e ↔ x ∈ columns ∧ part_of x e.
Proof. unfold req_columns. by rewrite !elem_of_list_In, filter_In, occurs_ok. Qed.

Lemma req_NoDup columns e : NoDup columns → NoDup (req_columns columns e).
Proof. intros H. apply NoDup_ListNoDup, List.NoDup_filter. by apply NoDup_ListNoDup. Qed.

(** ** names *)
Lemma letter_ok c : letter c = true ↔ starts_name c.
Proof.
  unfold starts_name. rewrite <- occurs_ok.
  assert (letter c = occurs (String c "") alphabet || (128 <=? nat_of_ascii c)%nat) as ->.
  { destruct c as [[] [] [] [] [] [] [] []]; by vm_compute. }
  by rewrite orb_true_iff, Nat.leb_le.
Qed.
Lemma digit_ok c : digit c = true ↔ part_of (String c "") digits.
Proof.
  rewrite <- occurs_ok. assert (digit c = occurs (String c "") digits) as ->; [|done].
  destruct c as [[] [] [] [] [] [] [] []]; by vm_compute.
Qed.
Lemma name_tail_ok t : name_tail t = true ↔ ∀ a d b, t = a +:+ String d b → starts_name d ∨ part_of (String d "") digits.
Proof.
  induction t as [|c t IH]; cbn [name_tail].
  - split; [|done]. intros _ a d b H. by destruct a.
  - rewrite andb_true_iff, orb_true_iff, letter_ok, digit_ok, IH. split.
    + intros [Hc Ht] a d b H. destruct a as [|x a]; [by injection H as -> _|]. injection H as -> H. by apply (Ht a d b).
    + intros H. split; [exact (H "" c t eq_refl)|]. intros a d b ->. apply (H (String c a) d b eq_refl).
Qed.
Lemma reserved_ok s : s ∈ keywords ↔ s ∈ reserved.
Proof.
  assert (∀ l k : list string, forallb (λ x, bool_decide (x ∈ k)) l = true → s ∈ l → s ∈ k) as H.
  { intros l k Hl Hs. rewrite forallb_forall in Hl. apply elem_of_list_In in Hs. by apply Hl, bool_decide_eq_true_1 in Hs. }
  split; apply H; by vm_compute.
Qed.
Lemma identifier_ok s : identifier s = true ↔ python_name s.
Proof.
  unfold python_name. rewrite <- reserved_ok. destruct s as [|c t].
  - split; [done|]. by intros [(c & t & H & _) _].
  - unfold identifier. rewrite !andb_true_iff, negb_true_iff, bool_decide_eq_false, letter_ok, name_tail_ok. split.
    + intros [[Hc Ht] Hk]. split; [|done]. by exists c, t.
    + intros [(c' & t' & H & Hc & Ht) Hk]. injection H as <- <-. done.
Qed.

(** ** parameters *)
Notation strip p := (rstrip (lstrip p)).
Definition clean (x : string) : Prop := split_commas x = [x] ∧ strip x = x.

Lemma split_not_nil s : split_commas s ≠ [].
Proof. destruct s; cbn [split_commas]; [done|]. case_decide; [done|]. by destruct (split_commas s). Qed.

Lemma split_app a b : split_commas (a +:+ String "," b) = split_commas a ++ split_commas b.
Proof.
  induction a as [|c a IH]; [done|].
  change (String c a +:+ String "," b) with (String c (a +:+ String "," b)). cbn [split_commas]. rewrite IH.
  case_decide; [done|]. pose proof (split_not_nil a). by destruct (split_commas a).
Qed.

Lemma split_space s : map (λ p, strip p) (split_commas (String " " s)) = map (λ p, strip p) (split_commas s).
Proof.
  cbn [split_commas]. rewrite decide_False by done. pose proof (split_not_nil s). by destruct (split_commas s).
Qed.

Lemma split_join l : l ≠ [] →
  map (λ p, strip p) (split_commas (join ", " l)) = concat (map (λ x, map (λ p, strip p) (split_commas x)) l).
Proof.
  induction l as [|x l IH]; [done|]. intros _. destruct l as [|y l].
  - cbn. by rewrite app_nil_r.
  - change (join ", " (x :: y :: l)) with (x +:+ String "," (String " " (join ", " (y :: l)))).
    rewrite split_app, map_app, split_space, IH by done. done.
Qed.

Lemma clean_join l : l ≠ [] → Forall clean l → map (λ p, strip p) (split_commas (join ", " l)) = l.
Proof.
  intros Hl H. rewrite split_join by done. clear Hl. induction H as [|x l [Hs Ht] _ IH]; [done|].
  cbn [map concat]. rewrite Hs. cbn. by rewrite Ht, IH.
Qed.

Lemma clean_in x l : x ∈ l → clean x → x ∈ map (λ p, strip p) (split_commas (join ", " l)).
Proof.
  intros Hx [Hs Ht]. rewrite split_join by (by intros ->; apply not_elem_of_nil in Hx).
  apply elem_of_list_In, in_concat. exists [x]. split; [|by left].
  apply in_map_iff. exists x. split; [|by apply elem_of_list_In]. rewrite Hs. cbn. by rewrite Ht.
Qed.

Lemma drop_in x l : x ∈ l → x ≠ "" → x ∈ drop_last_empty l.
Proof.
  intros Hx Hne. induction l as [|y l IH]; [by apply not_elem_of_nil in Hx|]. destruct l as [|z l].
  - apply elem_of_list_singleton in Hx as ->. cbn [drop_last_empty]. rewrite decide_False by done. apply elem_of_list_here.
  - change (x ∈ y :: drop_last_empty (z :: l)). apply elem_of_cons in Hx as [->|Hx]; [apply elem_of_list_here|].
    apply elem_of_list_further. by apply IH.
Qed.

Lemma drop_id l : Forall (λ x, x ≠ "") l → drop_last_empty l = l.
Proof.
  induction 1 as [|x l Hx _ IH]; [done|]. destruct l as [|y l].
  - cbn [drop_last_empty]. by rewrite decide_False by done.
  - change (x :: drop_last_empty (y :: l) = x :: y :: l). by rewrite IH.
Qed.

(** letters and digits are no commas and not white *)
Lemma tail_char c : letter c || digit c = true → c ≠ ","%char ∧ white c = false.
Proof.
  intros H. split.
  - intros ->. discriminate H.
  - unfold letter, digit, white in *. set (n := N_of_ascii c) in *. cbn zeta in *.
    destruct (N.eqb_spec n 32) as [->|]; [discriminate H|].
    destruct (N.leb_spec 9 n); [|done]. destruct (N.leb_spec n 13); [|done].
    assert (n ∈ [9; 10; 11; 12; 13])%N as Hn.
    { assert (n = 9 ∨ n = 10 ∨ n = 11 ∨ n = 12 ∨ n = 13)%N as Hn by lia.
      destruct Hn as [->|[->|[->|[->| ->]]]]; set_solver. }
    exfalso. clearbody n. clear -H Hn. repeat (apply elem_of_cons in Hn as [->|Hn]; [discriminate H|]).
    by apply not_elem_of_nil in Hn.
Qed.

Lemma tail_split s : name_tail s = true → split_commas s = [s].
Proof.
  induction s as [|c s IH]; [done|]. cbn [name_tail split_commas]. intros [Hc Hs]%andb_prop.
  destruct (tail_char c Hc) as [Hne _]. rewrite decide_False by done. by rewrite IH.
Qed.

Lemma tail_rstrip s : name_tail s = true → rstrip s = s.
Proof.
  induction s as [|c s IH]; [done|]. cbn [name_tail rstrip]. intros [Hc Hs]%andb_prop.
  destruct (tail_char c Hc) as [_ Hw]. rewrite IH by done. destruct s; [|done]. by rewrite Hw.
Qed.

Lemma identifier_clean s : identifier s = true → clean s ∧ s ≠ "".
Proof.
  destruct s as [|c s]; [done|]. unfold identifier. intros [[Hc Hs]%andb_prop _]%andb_prop.
  assert (name_tail (String c s) = true) as H by (cbn [name_tail]; by rewrite Hc, Hs).
  split; [|done]. split; [by apply tail_split|]. cbn [lstrip].
  destruct (tail_char c) as [_ Hw]; [by rewrite Hc|]. rewrite Hw. by apply tail_rstrip.
Qed.

Lemma params_ok l : Forall (λ x, identifier x = true) l → NoDup l → py_params (join ", " l) = Some l.
Proof.
  intros Hid Hnd. destruct l as [|x l]; [done|]. unfold py_params.
  rewrite clean_join; [|done|eapply list.Forall_impl; [exact Hid|intros y Hy; by apply identifier_clean]].
  rewrite drop_id by (eapply list.Forall_impl; [exact Hid|intros y Hy; by apply identifier_clean]).
  rewrite (bool_decide_eq_true_2 _ Hnd), andb_true_r.
  replace (forallb identifier (x :: l)) with true; [done|]. symmetry. apply forallb_forall.
  intros y Hy%elem_of_list_In. exact (proj1 (list.Forall_forall _ _) Hid y Hy).
Qed.

Lemma params_bad l x : x ∈ l → clean x → x ≠ "" → identifier x = false → py_params (join ", " l) = None.
Proof.
  intros Hx Hc Hne Hid. unfold py_params. destruct (forallb identifier _) eqn:Hall; [|done]. exfalso.
  rewrite forallb_forall in Hall. rewrite (Hall x) in Hid; [done|]. apply elem_of_list_In, drop_in; [|done]. by apply clean_in.
Qed.

Lemma plain_clean x : ¬ part_of "," x → no_white x → clean x.
Proof.
  intros Hc Hw.
  assert (∀ y, ¬ part_of "," y → split_commas y = [y]) as Hs.
  { clear. induction y as [|c y IH]; [done|]. intros Hc. cbn [split_commas]. rewrite decide_False.
    - rewrite IH; [done|]. intros (a & b & H). apply Hc. exists (String c a), b. by rewrite H.
    - intros ->. apply Hc. by exists "", y. }
  assert (∀ y, no_white y → rstrip y = y) as Hr.
  { clear. induction y as [|c y IH]; [done|]. intros Hw. cbn [rstrip]. rewrite IH.
    - destruct y; [|done]. by rewrite (Hw "" c "").
    - intros a w b H. apply (Hw (String c a) w b). by rewrite H. }
  split; [by apply Hs|]. replace (lstrip x) with x; [by apply Hr|].
  destruct x as [|c x]; [done|]. cbn [lstrip]. by rewrite (Hw "" c x).
Qed.

(** ** calls *)
Lemma list_filter_iff_seq (P Q : nat → bool) n :
  (∀ i, (i < n)%nat → P i = Q i) → filter (λ i, P i = true) (seq 0 n) = filter (λ i, Q i = true) (seq 0 n).
Proof.
  intros H. assert (∀ l, Forall (λ i, (i < n)%nat) l → filter (λ i, P i = true) l = filter (λ i, Q i = true) l) as Hl.
  { induction 1 as [|i l Hi _ IH]; [done|]. rewrite !filter_cons, IH. apply decide_ext. by rewrite H. }
  apply Hl, list.Forall_forall. intros i Hi%elem_of_seq. lia.
Qed.

Section calls.
  Context {A T : Type} `{EqDecision T} (ty : A → T) (none : A) (ps : Z).
  Context (parses : string → bool) (value : string → (string → option A) → res bool).
  Notation tbl := (table string A T).

  Lemma bind_map (l : list string) (g : string → A) x :
    bind l (map g l) x = if decide (x ∈ l) then Some (g x) else None.
  Proof.
    unfold bind. induction l as [|y l IH]; [done|]. cbn. destruct (decide (x = y)) as [->|Hne].
    - rewrite decide_True by apply elem_of_list_here. by rewrite ?decide_True by done.
    - rewrite ?decide_False by done. rewrite IH. apply decide_ext. rewrite elem_of_cons. naive_solver.
  Qed.

  Lemma call_rows_ok f (rows : list (list A)) g :
    (∀ r, r ∈ rows → f r = Ok (g r)) → call_rows f rows = Ok (map g rows).
  Proof.
    induction rows as [|r rows IH]; intros H; [done|]. cbn. rewrite (H r) by apply elem_of_list_here. cbn.
    rewrite IH; [done|]. intros r' Hr'. apply H. by apply elem_of_list_further.
  Qed.

  Notation req t e := (req_columns t.*1 e).
  Notation fields t e i := (map (λ k, field none (contents t) k i) (req_columns t.*1 e)).

  (** The function that is called for row [i] *)
  Lemma function_ok (t : tbl) e :
    NoDup t.*1 → Forall (λ c, part_of c e → python_name c) t.*1 → parses e = true → reads_its_names value e →
    ∃ f, expression_interpreter parses value e t.*1 = Ok f ∧
      ∀ i, f (fields t e i) = value e (row_values none (contents t) i).
  Proof.
    intros Hnd Hid Hp Hv. unfold expression_interpreter. rewrite params_ok.
    - rewrite Hp. eexists. split; [done|]. intros i. cbn beta. rewrite decide_True by (by rewrite map_length).
      apply Hv. intros x Hx. rewrite bind_map. unfold row_values. apply decide_ext.
      rewrite contents_names, req_in. naive_solver.
    - apply list.Forall_forall. intros x [Hx Hpart]%req_in. apply identifier_ok. exact (proj1 (list.Forall_forall _ _) Hid x Hx Hpart).
    - by apply req_NoDup.
  Qed.

  Lemma two_req (t : tbl) e c d :
    NoDup t.*1 → c ∈ t.*1 → d ∈ t.*1 → c ≠ d → part_of c e → part_of d e → (2 <= length (req t e))%nat.
  Proof.
    intros Hnd Hc Hd Hne Hpc Hpd.
    assert (c ∈ req t e) as Hc' by (by apply req_in). assert (d ∈ req t e) as Hd' by (by apply req_in).
    destruct (req t e) as [|x [|y l]]; [by apply not_elem_of_nil in Hc'| |cbn; lia].
    apply elem_of_list_singleton in Hc' as ->, Hd' as ->. done.
  Qed.

  (** The rows of the selected columns *)
  Lemma selected_rows (t : tbl) e n :
    NoDup t.*1 → rect n (contents t) → (2 <= length (req t e))%nat →
    ∃ u, tbl_getitem ty ps t (map KName (req t e)) = Ok (SelTable u) ∧ tbl_rows none u = Ok (map (λ i, fields t e i) (seq 0 n)).
  Proof.
    intros Hnd Hr H2. destruct (select_names ty ps t (req t e)) as (u & Hu & Hc); [by apply req_NoDup|done|by intros k [? _]%req_in|].
    exists u. split; [done|]. rewrite (tbl_rows_spec none), Hc, (sub_rows none t (req t e) n); [done| |done|by intros k [? _]%req_in].
    by destruct (req t e).
  Qed.

  Theorem filter_text_ok (t : tbl) e n passes c d :
    (0 < ps)%Z → NoDup t.*1 → rect n (contents t) → parses e = true → reads_its_names value e →
    Forall (λ c, part_of c e → python_name c) t.*1 →
    c ∈ t.*1 → d ∈ t.*1 → c ≠ d → part_of c e → part_of d e →
    (∀ i, (i < n)%nat → value e (row_values none (contents t) i) = Ok (passes i)) →
    ∃ p q, filter_text ty none ps parses value t e = Ok (p, q) ∧
      names (contents p) = names (contents t) ∧ names (contents q) = names (contents t) ∧
      rows none (contents p) = selected none (contents t) passes n ∧
      rows none (contents q) = selected none (contents t) (λ i, negb (passes i)) n.
  Proof.
    intros Hps Hnd Hr Hp Hv Hid Hc Hd Hne Hpc Hpd Hok.
    pose proof (two_req t e c d Hnd Hc Hd Hne Hpc Hpd) as H2.
    destruct (function_ok t e Hnd Hid Hp Hv) as (f & Hf & Hval).
    destruct (selected_rows t e n Hnd Hr H2) as (u & Hu & Hrows).
    set (g r := match f r with Ok b => b | Err _ => false end).
    destruct (filter_expr_spec ty none ps Hps t (λ i, occurs i e) g n Hnd Hr H2) as (p & q & Hpq & Hnp & Hnq & Hrp & Hrq).
    assert (∀ i, (i < n)%nat → f (fields t e i) = Ok (passes i)) as Hfi by (intros i Hi; by rewrite Hval, Hok).
    exists p, q. split_and!; try done.
    - etrans; [|exact Hpq]. unfold filter_text, filter_expr. destruct (tbl_len t =? 0)%Z; [done|].
      unfold filter_using_expression. rewrite Hf.
      fold (req_columns t.*1 e). rewrite Hu. cbn [res_bind]. rewrite Hrows. cbn [res_bind].
      rewrite (call_rows_ok f _ g); [done|]. intros r Hr'. apply elem_of_list_In, in_map_iff in Hr' as (i & <- & Hi).
      apply in_seq in Hi. unfold g. by rewrite Hfi by lia.
    - rewrite Hrp. unfold selected. f_equal. apply list_filter_iff_seq. intros i Hi. unfold g.
      fold (req_columns t.*1 e). by rewrite Hfi.
    - rewrite Hrq. unfold selected. f_equal. apply list_filter_iff_seq. intros i Hi. unfold g.
      fold (req_columns t.*1 e). by rewrite Hfi.
  Qed.

  (** The first row whose value cannot be had *)
  Theorem filter_text_raises (t : tbl) e n i x c d :
    NoDup t.*1 → rect n (contents t) → parses e = true → reads_its_names value e →
    Forall (λ c, part_of c e → python_name c) t.*1 →
    c ∈ t.*1 → d ∈ t.*1 → c ≠ d → part_of c e → part_of d e → (i < n)%nat →
    (∀ j, (j < i)%nat → ∃ b, value e (row_values none (contents t) j) = Ok b) →
    value e (row_values none (contents t) i) = Err x →
    filter_text ty none ps parses value t e = Err x.
  Proof.
    intros Hnd Hr Hp Hv Hid Hc Hd Hne Hpc Hpd Hi Hbefore Hx.
    pose proof (two_req t e c d Hnd Hc Hd Hne Hpc Hpd) as H2.
    destruct (function_ok t e Hnd Hid Hp Hv) as (f & Hf & Hval).
    destruct (selected_rows t e n Hnd Hr H2) as (u & Hu & Hrows).
    unfold filter_text. rewrite tbl_len_spec, (nrows_rect _ n); [|done|by destruct t; [by apply not_elem_of_nil in Hc|]].
    destruct (Z.eqb_spec (Z.of_nat n) 0); [lia|].
    unfold filter_using_expression. rewrite Hf, Hu. cbn [res_bind]. rewrite Hrows. cbn [res_bind].
    replace n with (i + S (n - S i))%nat by lia. rewrite seq_app, map_app. cbn [seq map Nat.add].
    assert (∀ k, (k <= i)%nat → ∀ rest,
      call_rows f (map (λ j, fields t e j) (seq k (i - k)) ++ fields t e i :: rest) = Err x) as Hloop.
    { intros k Hk rest. remember (i - k)%nat as m eqn:Hm. revert k Hk Hm. induction m as [|m IH]; intros k Hk Hm.
      - cbn. by rewrite Hval, Hx.
      - cbn. rewrite Hval. destruct (Hbefore k) as [b Hb]; [lia|]. rewrite Hb. cbn. by rewrite IH by lia. }
    specialize (Hloop 0%nat). rewrite Nat.sub_0_r in Hloop. rewrite Hloop by lia. done.
  Qed.

  (** A column whose name is no name in Python *)
  Theorem filter_text_unreadable (t : tbl) e c :
    (0 < tbl_len t)%Z → c ∈ t.*1 → part_of c e → ¬ part_of "," c → no_white c → c ≠ "" → ¬ python_name c →
    filter_text ty none ps parses value t e = Err ValueError.
  Proof.
    intros Hl Hc Hp Hcomma Hwhite Hne Hid. rewrite <- identifier_ok, not_true_iff_false in Hid. pose proof (plain_clean c Hcomma Hwhite) as Hclean. unfold filter_text. destruct (Z.eqb_spec (tbl_len t) 0); [lia|].
    unfold filter_using_expression, expression_interpreter.
    by rewrite (params_bad _ c) by (done || by apply req_in).
  Qed.

  (** At most one column *)
  Theorem filter_text_few (t : tbl) e :
    (0 < tbl_len t)%Z → NoDup t.*1 → parses e = true → Forall (λ c, part_of c e → python_name c) t.*1 →
    (length (req t e) <= 1)%nat → ∃ x, filter_text ty none ps parses value t e = Err x ∧ x ∈ [IndexError; AttributeError].
  Proof.
    intros Hl Hnd Hp Hid Hreq. unfold filter_text. destruct (Z.eqb_spec (tbl_len t) 0); [lia|].
    unfold filter_using_expression, expression_interpreter. rewrite params_ok.
    - rewrite Hp. destruct (req t e) as [|k [|y l]] eqn:Hk; [|cbn in Hreq|cbn in Hreq; lia].
      + exists IndexError. split; [done|set_solver].
      + assert (k ∈ t.*1) as Hin by (eapply proj1, req_in; rewrite Hk; apply elem_of_list_here).
        destruct (dget_in t k Hin) as [c Hc]. unfold tbl_getitem. cbn. rewrite bool_decide_eq_true_2 by done. cbn.
        rewrite Hc. exists AttributeError. split; [done|set_solver].
    - apply list.Forall_forall. intros x [Hx Hpart]%req_in. apply identifier_ok. exact (proj1 (list.Forall_forall _ _) Hid x Hx Hpart).
    - by apply req_NoDup.
  Qed.
End calls.
