(** The text parser on well-quoted text (C45) and the pre-scan (C47). *)
From Verif.Spec Require Import PyList.
From Verif.Model Require Import Csv.
Local Open Scope Z_scope.

(** ** Text as a stream of events *)
Fixpoint evs (text : list chr) : list event :=
  match text with
  | [] => []
  | c :: rest =>
      if decide (c = NL) then Ch NL :: EOL :: evs rest
      else match rest with
           | c' :: _ => if decide (c = CR ∧ c' = NL) then evs rest else Ch c :: evs rest
           | [] => [Ch c]
           end
  end.

Lemma evs_nl rest : evs (NL :: rest) = Ch NL :: EOL :: evs rest.
Proof. reflexivity. Qed.
Lemma evs_ch c rest : c ≠ NL → (c = CR → head rest ≠ Some NL) → evs (c :: rest) = Ch c :: evs rest.
Proof.
  intros H1 H2. simpl. rewrite decide_False by done. destruct rest as [|c' rest]; [done|].
  rewrite decide_False; [done|]. intros [-> ->]. by apply H2.
Qed.
Lemma evs_crlf rest : evs (CR :: NL :: rest) = evs (NL :: rest).
Proof. reflexivity. Qed.
Global Arguments evs : simpl never.

Definition line_evs (l : list chr * Z) : list event := map Ch (l.1 ++ [NL]) ++ [EOL].
Definition lines_evs (ls : list (list chr * Z)) : list event := ls ≫= line_evs.

Lemma last_cr_or cur : (∃ before, cur = before ++ [CR] ∧ rev cur = CR :: rev before) ∨
  (list.last cur ≠ Some CR ∧ match rev cur with 13 :: before => rev before | _ => cur end = cur).
Proof.
  induction cur as [|c cur _] using rev_ind; [by right|].
  destruct (decide (c = CR)) as [->|Hc].
  - left. exists cur. split; [done|]. by rewrite rev_app_distr.
  - right. rewrite last_snoc. split; [congruence|]. rewrite rev_app_distr. simpl.
    unfold CR in Hc. destruct c as [|p|p]; try done.
    do 4 (destruct p; try done).
Qed.

(** Characters of a line so far: no newline, a trailing CR is still undecided. *)
Lemma evs_line cur rest : NL ∉ cur →
  evs (cur ++ NL :: rest) =
  map Ch (match rev cur with 13 :: before => rev before | _ => cur end) ++ Ch NL :: EOL :: evs rest.
Proof.
  intros Hnl.
  assert (∀ l tl, NL ∉ l → (list.last l = Some CR → head tl ≠ Some NL) → evs (l ++ tl) = map Ch l ++ evs tl) as Hplain.
  { clear. induction l as [|c l IH]; intros tl Hnl Hcr; [done|].
    apply not_elem_of_cons in Hnl as [? ?]. cbn [app map]. rewrite evs_ch.
    - f_equal. apply IH; [done|]. intros Hl. apply Hcr. destruct l; done.
    - done.
    - intros ->. destruct l as [|c' l]; [by apply Hcr|]. cbn. set_solver. }
  destruct (last_cr_or cur) as [(before & -> & Hrev)|[Hl ->]].
  - rewrite Hrev. change (match CR :: rev before with 13 :: b => rev b | _ => before ++ [CR] end) with (rev (rev before)).
    rewrite rev_involutive, <- app_assoc. cbn [app].
    rewrite Hplain; [by rewrite evs_crlf, evs_nl| |done].
    set_solver.
  - rewrite Hplain; [by rewrite evs_nl|done|done].
Qed.

Lemma lines_evs_from text cur : NL ∉ cur → (text = [] → cur = []) → (text ≠ [] → list.last text = Some NL) →
  lines_evs (read_lines_from cur text) = evs (cur ++ text).
Proof.
  revert cur. induction text as [|c text IH]; intros cur Hcur Hnil Hlast.
  { by rewrite Hnil. }
  cbn [read_lines_from]. destruct (Z.eqb_spec c 10) as [->|Hc].
  - cbv zeta. unfold lines_evs at 1. cbn [mbind list_bind]. fold (lines_evs (read_lines_from [] text)).
    rewrite IH; [|set_solver|done|].
    + change 10 with NL. rewrite evs_line by done. unfold line_evs. cbn [fst app].
      rewrite map_app, <- !app_assoc. done.
    + intros Ht. specialize (Hlast ltac:(done)). destruct text; [done|]. done.
  - rewrite IH.
    + by rewrite <- app_assoc.
    + unfold NL. set_solver.
    + intros ->. specialize (Hlast ltac:(done)). cbn in Hlast. injection Hlast as ->. done.
    + intros Ht. specialize (Hlast ltac:(done)). destruct text; done.
Qed.
Lemma lines_evs_text text : (text ≠ [] → list.last text = Some NL) → lines_evs (read_lines text) = evs text.
Proof. intros H. unfold read_lines. rewrite lines_evs_from; [done|set_solver|done|exact H]. Qed.

(** ** The parser over events *)
Fixpoint parse_evs (dia : dialect) (r : reader) (es : list event) : list (list (list chr)) * bool :=
  match es with
  | [] => ([], true)
  | ev :: es =>
      match process_char dia r ev with
      | None => ([], false)
      | Some r =>
          match ev with
          | EOL => if decide (r_state r = START_RECORD) then
                     let rest := parse_evs dia (Reader (r_state r) (r_field r) [] (r_numeric r)) es in
                     (r_fields r :: rest.1, rest.2)
                   else parse_evs dia r es
          | Ch _ => parse_evs dia r es
          end
      end
  end.

Lemma parse_evs_line dia l r es :
  parse_evs dia r ((map Ch l ++ [EOL]) ++ es) =
  match process_all dia r (map Ch l ++ [EOL]) with
  | None => ([], false)
  | Some r => if decide (r_state r = START_RECORD) then
                let rest := parse_evs dia (Reader (r_state r) (r_field r) [] (r_numeric r)) es in
                (r_fields r :: rest.1, rest.2)
              else parse_evs dia r es
  end.
Proof.
  revert r. induction l as [|c l IH]; intros r; cbn [map app parse_evs process_all].
  - destruct (process_char dia r EOL); reflexivity.
  - destruct (process_char dia r (Ch c)); [|reflexivity]. cbn [mbind option_bind]. apply IH.
Qed.
Lemma parse_loop_evs dia lines r pos :
  let out := parse_loop dia r pos lines in
  parse_evs dia r (lines_evs lines) = (out.1.*1, out.2).
Proof.
  cbv zeta. revert r pos. induction lines as [|[line n] lines IH]; intros r pos; [done|].
  cbn [parse_loop]. unfold lines_evs. cbn [mbind list_bind]. fold (lines_evs lines).
  unfold line_evs at 1. cbn [fst]. rewrite parse_evs_line. unfold process_line.
  change [NL] with [10]. destruct (process_all _ _ _) as [r'|]; [|reflexivity].
  case_decide; rewrite (IH _ (pos + n)); reflexivity.
Qed.

Lemma parse_csv_evs dia text : (text ≠ [] → list.last text = Some NL) →
  parse_csv dia text = parse_evs dia reader0 (evs text).
Proof.
  intros H. unfold parse_csv. rewrite <- lines_evs_text by done. by rewrite (parse_loop_evs _ _ _ 0).
Qed.

(** ** Fields *)
Lemma replace_breaks_show f : replace_breaks f = show_breaks f.
Proof.
  unfold replace_breaks, show_breaks. induction f as [|c f IH]; [done|]. cbn [map concat mbind list_bind].
  change (concat ?l) with (List.concat l) in IH. rewrite IH. f_equal.
  unfold NL, TAB. repeat case_decide; subst; try done.
  destruct (Z.eqb_spec c 10); [done|]. by destruct (Z.eqb_spec c 9).
Qed.

Lemma is_whitespace_white c : is_whitespace c = true ↔ white c.
Proof.
  unfold is_whitespace, white, SPACE, TAB, CR, NL. rewrite bool_decide_eq_true, !elem_of_cons, elem_of_nil. naive_solver.
Qed.
Lemma drop_while_app {A} (P : A → Prop) `{∀ x, Decision (P x)} l k :
  drop_while P (l ++ k) = match drop_while P l with [] => drop_while P k | l' => l' ++ k end.
Proof. induction l as [|x l IH]; [done|]. cbn. case_decide; [apply IH|done]. Qed.
Lemma strip_trailing_spec f : strip_trailing f = reverse (drop_while white (reverse f)).
Proof.
  induction f as [|c f IH]; [done|]. rewrite reverse_cons, drop_while_app. cbn [strip_trailing]. rewrite IH.
  destruct (drop_while white (reverse f)) as [|x l] eqn:E.
  - cbn. destruct (is_whitespace c) eqn:Ew.
    + apply is_whitespace_white in Ew. by rewrite decide_True.
    + rewrite decide_False; [done|]. intros Hw%is_whitespace_white. congruence.
  - rewrite (reverse_app (x :: l) [c]). destruct (reverse (x :: l)) eqn:E2; [|done].
    exfalso. apply (f_equal length) in E2. rewrite reverse_length in E2. done.
Qed.

Lemma crlf_to_lf_id f : NL ∉ f → crlf_to_lf f = f.
Proof.
  induction f as [|c f IH]; intros H; [done|]. cbn [crlf_to_lf]. destruct f as [|c' f]; [done|].
  rewrite decide_False by set_solver. rewrite IH by set_solver. done.
Qed.

Section fields.
  Context (dia : dialect) (strip : bool).
  Context (d q e : chr).
  Hypothesis Hd : delimiter dia = d.
  Hypothesis Hq : quotechar dia = q.
  Hypothesis He : escapechar dia = e.
  Hypothesis Hdq : doublequote dia = true.
  Hypothesis Hquoting : d_quoting dia ≠ QUOTE_NONNUMERIC.
  Hypothesis Hskip : skipinitialspace dia = strip ∧ skiptrailingspace dia = strip.
  Hypothesis Hdist : d ≠ q ∧ d ≠ e ∧ q ≠ e.
  Hypothesis Hcrnl : d ≠ NL ∧ d ≠ CR ∧ q ≠ NL ∧ q ≠ CR ∧ e ≠ NL.
  Hypothesis Hspace : strip = true → d ≠ SPACE ∧ q ≠ SPACE.

  Definition shown (f : list chr) : list chr := if decide (d_quoting dia = QUOTE_NONE) then f else show_breaks f.
  Lemma shown_nil : shown [] = [].
  Proof. unfold shown. by case_decide. Qed.

  (** What the parser returns for a field. *)
  Definition seen (x : bool * list chr) : list chr := shown (stripped strip x.1 (crlf_to_lf x.2)).

  Lemma save_spec st f fs : save_field dia (Reader st f fs false) =
    Some (Reader st [] (fs ++ [shown (if strip then strip_trailing f else f)]) false).
  Proof.
    clear Hd Hq He Hdist Hcrnl Hspace. pose proof Hskip as [_ Hs]. unfold save_field. cbn [r_numeric r_field r_state r_fields].
    rewrite Hs. unfold shown. case_decide; [done|]. by rewrite replace_breaks_show.
  Qed.
  Lemma add_spec st f fs b c : Z.of_nat (length f) < field_limit →
    add_char (Reader st f fs b) c = Some (Reader st (f ++ [c]) fs b).
  Proof. intros H. unfold add_char. cbn [r_field]. rewrite decide_False by lia. done. Qed.

  Lemma limit_pos : Z.of_nat (length (@nil chr)) < field_limit.
  Proof. unfold field_limit. cbn [length]. lia. Qed.

  Lemma is_crnl_false c : c ≠ NL → c ≠ CR → is_crnl c = false.
  Proof. unfold is_crnl, NL, CR. intros. apply orb_false_iff. rewrite !Z.eqb_neq. done. Qed.

  (** *** Quoted fields *)
  Lemma quoted_char f fs c : c ≠ q → c ≠ e → Z.of_nat (length f) < field_limit →
    process_char dia (Reader IN_QUOTED_FIELD f fs false) (Ch c) = Some (Reader IN_QUOTED_FIELD (f ++ [c]) fs false).
  Proof.
    intros H1 H2 H3. unfold process_char. cbn [r_state]. rewrite He, Hq.
    destruct (Z.eqb_spec c e); [done|]. destruct (Z.eqb_spec c q); [done|]. cbn [andb]. by apply add_spec.
  Qed.
  Lemma quoted_quote f fs : d_quoting dia ≠ QUOTE_NONE →
    process_char dia (Reader IN_QUOTED_FIELD f fs false) (Ch q) = Some (Reader QUOTE_IN_QUOTED_FIELD f fs false).
  Proof.
    intros Hon. unfold process_char. cbn [r_state]. rewrite He, Hq, Hdq, Z.eqb_refl.
    destruct (Z.eqb_spec q e) as [E|_]; [by destruct Hdist as (?&?&?)|].
    rewrite bool_decide_true by done. done.
  Qed.
  Lemma quoted_second f fs : d_quoting dia ≠ QUOTE_NONE → Z.of_nat (length f) < field_limit →
    process_char dia (Reader QUOTE_IN_QUOTED_FIELD f fs false) (Ch q) = Some (Reader IN_QUOTED_FIELD (f ++ [q]) fs false).
  Proof.
    intros Hon H. unfold process_char. cbn [r_state]. rewrite Hq, Z.eqb_refl.
    rewrite bool_decide_true by done. cbn [andb]. by rewrite add_spec.
  Qed.

  Lemma quoted_body f f0 fs rest : d_quoting dia ≠ QUOTE_NONE → e ∉ f → Z.of_nat (length f0 + length f) <= field_limit →
    parse_evs dia (Reader IN_QUOTED_FIELD f0 fs false) (evs (double_quotes q f ++ q :: rest)) =
    parse_evs dia (Reader IN_QUOTED_FIELD (f0 ++ crlf_to_lf f) fs false) (evs (q :: rest)).
  Proof.
    pose proof Hcrnl as (Hdn & Hdc & Hqn & Hqc & Hen). intros Hon.
    revert f0. induction f as [|c f IH]; intros f0 Hne Hlen.
    { cbn. by rewrite app_nil_r. }
    apply not_elem_of_cons in Hne as [Hec Hef].
    unfold double_quotes. cbn [mbind list_bind]. fold (double_quotes q f).
    cbn [length] in Hlen. case_decide as Hcq.
    - subst c. cbn [app]. rewrite evs_ch by done. rewrite evs_ch by done.
      cbn [parse_evs]. rewrite quoted_quote by done. rewrite quoted_second by (done || lia).
      rewrite IH; [|done|rewrite app_length; cbn; lia].
      f_equal. f_equal. rewrite <- app_assoc. f_equal. cbn [crlf_to_lf app].
      destruct f as [|c' f]; [done|]. rewrite decide_False; [done|]. naive_solver.
    - cbn [app]. destruct (decide (c = NL)) as [->|Hcn].
      { rewrite evs_nl. cbn [parse_evs]. rewrite quoted_char by (done || lia).
        cbn [process_char r_state]. rewrite decide_False by done.
        rewrite IH; [|done|rewrite app_length; cbn; lia]. f_equal. f_equal.
        rewrite <- app_assoc. f_equal. cbn [crlf_to_lf app]. destruct f; [done|].
        rewrite decide_False; [done|]. by intros [? _]. }
      destruct (decide (c = CR ∧ head f = Some NL)) as [[-> Hh]|Hncr].
      { destruct f as [|c' f]; [done|]. cbn in Hh. injection Hh as ->.
        assert (double_quotes q (NL :: f) = NL :: double_quotes q f) as Hdbl.
        { unfold double_quotes. cbn [mbind list_bind]. by rewrite decide_False. }
        rewrite Hdbl. cbn [app]. rewrite evs_crlf. change (NL :: double_quotes q f ++ q :: rest) with ((NL :: double_quotes q f) ++ q :: rest).
        rewrite <- Hdbl, IH; [done|done|lia]. }
      rewrite evs_ch; [|done|].
      + cbn [parse_evs]. rewrite quoted_char by (done || lia).
        rewrite IH; [|done|rewrite app_length; cbn; lia]. f_equal. f_equal.
        rewrite <- app_assoc. f_equal. cbn [crlf_to_lf app]. destruct f as [|c' f]; [done|].
        rewrite decide_False; [done|]. intros [-> ->]. naive_solver.
      + intros -> Hh. apply Hncr. split; [done|]. destruct f as [|c' f].
        * cbn in Hh. congruence.
        * unfold double_quotes in Hh. cbn [mbind list_bind] in Hh. case_decide; cbn in Hh; [|done].
          subst. congruence.
  Qed.

  Definition start (st : pstate) : Prop := st = START_RECORD ∨ st = START_FIELD.

  (** After the closing quote, or in an unquoted field. *)
  Definition ready (st : pstate) : Prop :=
    st = QUOTE_IN_QUOTED_FIELD ∨ st = IN_FIELD.

  Lemma ready_delim st f fs : ready st →
    process_char dia (Reader st f fs false) (Ch d) =
    Some (Reader START_FIELD [] (fs ++ [shown (if strip then strip_trailing f else f)]) false).
  Proof.
    pose proof Hcrnl as (Hdn & Hdc & Hqn & Hqc & Hen). pose proof Hdist as (? & ? & ?).
    intros [->| ->]; unfold process_char; cbn [r_state]; rewrite ?Hq, ?Hd, ?He, ?is_crnl_false, ?Z.eqb_refl by done.
    - destruct (Z.eqb_spec d q); [done|]. rewrite andb_false_r, save_spec. done.
    - rewrite bool_decide_false by done. cbn [andb orb]. destruct (Z.eqb_spec d e); [done|]. by rewrite save_spec.
  Qed.
  Lemma ready_nl st f fs : ready st →
    process_char dia (Reader st f fs false) (Ch NL) =
    Some (Reader EAT_CRNL [] (fs ++ [shown (if strip then strip_trailing f else f)]) false).
  Proof.
    pose proof Hcrnl as (Hdn & Hdc & Hqn & Hqc & Hen). pose proof Hdist as (? & ? & ?).
    intros [->| ->]; unfold process_char; cbn [r_state]; rewrite ?Hq, ?Hd, ?He by done.
    - destruct (Z.eqb_spec NL q); [congruence|]. rewrite andb_false_r.
      destruct (Z.eqb_spec NL d); [congruence|]. cbn [is_crnl Z.eqb NL Pos.eqb orb]. by rewrite save_spec.
    - rewrite bool_decide_false by done. cbn [andb orb is_crnl Z.eqb NL Pos.eqb]. by rewrite save_spec.
  Qed.
  Lemma start_delim st fs : start st →
    process_char dia (Reader st [] fs false) (Ch d) =
    Some (Reader START_FIELD [] (fs ++ [[]]) false).
  Proof.
    pose proof Hcrnl as (Hdn & Hdc & Hqn & Hqc & Hen). pose proof Hdist as (? & ? & ?). pose proof Hskip as [Hs1 Hs2].
    intros [->| ->]; unfold process_char; cbn [r_state]; rewrite ?Hq, ?Hd, ?He, Hs1, ?is_crnl_false, ?Z.eqb_refl by done.
    all: destruct (Z.eqb_spec d q); [done|]; cbn [andb]; destruct (Z.eqb_spec d e); [done|].
    all: assert ((d =? 32) && strip = false) as -> by
      (destruct (Z.eqb_spec d 32) as [E|_]; [|done]; cbn [andb]; apply not_true_is_false; intros Es; by destruct (Hspace Es)).
    all: unfold set_state; cbn [r_field r_fields r_numeric]; rewrite save_spec; destruct strip; cbn [strip_trailing]; rewrite shown_nil; done.
  Qed.
  Lemma start_nl st fs : start st →
    process_char dia (Reader st [] fs false) (Ch NL) =
    Some (Reader EAT_CRNL [] (fs ++ [[]]) false).
  Proof.
    intros [->| ->]; unfold process_char; cbn [r_state is_crnl NL Z.eqb Pos.eqb orb]; rewrite save_spec; destruct strip; cbn [strip_trailing]; rewrite shown_nil; done.
  Qed.
  Lemma eat_eol fs : process_char dia (Reader EAT_CRNL [] fs false) EOL = Some (Reader START_RECORD [] fs false).
  Proof. done. Qed.

  Lemma start_quote st fs : d_quoting dia ≠ QUOTE_NONE → start st →
    process_char dia (Reader st [] fs false) (Ch q) = Some (Reader IN_QUOTED_FIELD [] fs false).
  Proof.
    pose proof Hcrnl as (Hdn & Hdc & Hqn & Hqc & Hen). intros Hon.
    intros [->| ->]; unfold process_char; cbn [r_state]; rewrite is_crnl_false, Hq, Z.eqb_refl by done;
      rewrite bool_decide_true by done; done.
  Qed.
  Lemma start_char_gen st f0 fs c : Z.of_nat (length f0) < field_limit → start st → c ≠ NL → c ≠ CR → c ≠ q → c ≠ e → c ≠ d →
    process_char dia (Reader st f0 fs false) (Ch c) =
    Some (if decide (strip = true ∧ c = SPACE) then Reader START_FIELD f0 fs false else Reader IN_FIELD (f0 ++ [c]) fs false).
  Proof.
    pose proof Hskip as [Hs1 Hs2]. intros Hlen Hst ? ? ? ? ?.
    assert ((c =? q) = false) as E1 by (by apply Z.eqb_neq). assert ((c =? e) = false) as E2 by (by apply Z.eqb_neq).
    assert ((c =? d) = false) as E3 by (by apply Z.eqb_neq).
    assert (is_crnl c = false) as E4 by (by apply is_crnl_false).
    assert (∀ X (a b : X), (if (c =? 32) && strip then a else b) = (if decide (strip = true ∧ c = SPACE) then a else b)) as E5.
    { intros X a b. unfold SPACE. destruct (Z.eqb_spec c 32); cbn [andb]; case_decide; destruct strip; naive_solver. }
    destruct Hst as [->| ->]; unfold process_char; cbn [r_state]; rewrite E4, Hq, He, Hd, Hs1, E1, E2, E3; cbn [andb]; rewrite E5.
    all: case_decide; [reflexivity|].
    all: rewrite decide_False by exact Hquoting; unfold set_state; cbn [r_state r_field r_fields r_numeric]; rewrite (add_spec _ _ _ _ _ Hlen); reflexivity.
  Qed.
  Lemma start_char st fs c : start st → c ≠ NL → c ≠ CR → c ≠ q → c ≠ e → c ≠ d →
    process_char dia (Reader st [] fs false) (Ch c) =
    Some (if decide (strip = true ∧ c = SPACE) then Reader START_FIELD [] fs false else Reader IN_FIELD [c] fs false).
  Proof. exact (start_char_gen st [] fs c limit_pos). Qed.
  Lemma field_char f fs c : c ≠ NL → c ≠ CR → c ≠ e → c ≠ d → Z.of_nat (length f) < field_limit →
    process_char dia (Reader IN_FIELD f fs false) (Ch c) = Some (Reader IN_FIELD (f ++ [c]) fs false).
  Proof.
    intros ? ? ? ? ?. unfold process_char. cbn [r_state]. rewrite is_crnl_false, He, Hd by done.
    rewrite bool_decide_false by done. cbn [andb orb].
    destruct (Z.eqb_spec c e); [done|]. destruct (Z.eqb_spec c d); [done|]. by apply add_spec.
  Qed.

  Lemma bare_body f f0 fs rest : may_be_bare d q f → e ∉ f → Z.of_nat (length f0 + length f) <= field_limit →
    parse_evs dia (Reader IN_FIELD f0 fs false) (evs (f ++ rest)) =
    parse_evs dia (Reader IN_FIELD (f0 ++ f) fs false) (evs rest).
  Proof.
    revert f0. induction f as [|c f IH]; intros f0 (H1 & H2 & H3 & H4) H5 H6.
    { cbn. by rewrite app_nil_r. }
    apply not_elem_of_cons in H1 as [? ?], H2 as [? ?], H3 as [? ?], H4 as [? ?], H5 as [? ?].
    cbn [app length] in *. rewrite evs_ch by done. cbn [parse_evs]. rewrite field_char by (done || lia).
    rewrite IH; [by rewrite <- app_assoc|done|done|rewrite app_length; cbn; lia].
  Qed.
  Lemma drop_while_fill (f : list chr) : strip_trailing (drop_while (λ c, c = SPACE) f) = stripped true false f.
  Proof. apply strip_trailing_spec. Qed.

  (** A whole field up to and including the delimiter. *)
  Definition good (x : bool * list chr) : Prop :=
    (x.1 = false → may_be_bare d q x.2) ∧ (x.1 = true → d_quoting dia ≠ QUOTE_NONE) ∧ e ∉ x.2 ∧ Z.of_nat (length x.2) <= field_limit.

  Lemma any_field x st fs rest : start st → good x →
    ∃ st' f', (f' = [] ∧ start st' ∨ ready st') ∧
      shown (if strip then strip_trailing f' else f') = seen x ∧
      ∀ c, (c = d ∨ c = NL) →
      parse_evs dia (Reader st [] fs false) (evs (write_field q x ++ c :: rest)) =
      parse_evs dia (Reader st' f' fs false) (evs (c :: rest)).
  Proof.
    pose proof Hcrnl as (Hdn & Hdc & Hqn & Hqc & Hen). destruct x as [b f]. intros Hst (Hbare & Hon & Hef & Hlen).
    cbn [fst snd] in *. unfold seen. cbn [fst snd]. destruct b.
    - specialize (Hon eq_refl). exists QUOTE_IN_QUOTED_FIELD, (crlf_to_lf f). split; [right; by left|]. split.
      { destruct strip; [|done]. by rewrite strip_trailing_spec. }
      intros c Hc. unfold write_field. cbn [fst snd]. cbn [app]. rewrite evs_ch by done. cbn [parse_evs].
      rewrite start_quote by done. rewrite <- app_assoc. cbn [app].
      rewrite quoted_body by (done || cbn; lia). rewrite app_nil_l. rewrite evs_ch by done.
      cbn [parse_evs]. by rewrite quoted_quote by done.
    - specialize (Hbare eq_refl).
      assert (∃ st', ((if strip then drop_while (λ c, c = SPACE) f else f) = [] ∧ start st' ∨ st' = IN_FIELD) ∧
        ∀ rest, parse_evs dia (Reader st [] fs false) (evs (f ++ rest)) =
          parse_evs dia (Reader st' (if strip then drop_while (λ c, c = SPACE) f else f) fs false) (evs rest)) as (st' & Hst' & Hp).
      { clear rest. revert st Hst Hbare Hef Hlen. induction f as [|c f IH]; intros st Hst (H1 & H2 & H3 & H4) H5 H6.
        { exists st. destruct strip; cbn; eauto. }
        apply not_elem_of_cons in H1 as [? ?], H2 as [? ?], H3 as [? ?], H4 as [? ?], H5 as [? ?].
        cbn [length] in *. destruct (decide (strip = true ∧ c = SPACE)) as [[Hs Hc]|Hns].
        - destruct (IH START_FIELD) as (st' & Hst' & Hp). { by right. } { done. } { done. } { lia. }
          exists st'. rewrite Hs in Hst', Hp |- *. cbn [drop_while]. rewrite decide_True by done. split; [done|].
          intros rest. cbn [app]. rewrite evs_ch by done. cbn [parse_evs]. rewrite start_char by done.
          rewrite decide_True by done. apply Hp.
        - exists IN_FIELD. split; [by right|]. intros rest. cbn [app]. rewrite evs_ch by done. cbn [parse_evs].
          rewrite start_char by done. rewrite decide_False by done. rewrite bare_body by (done || cbn; lia).
          f_equal. f_equal. cbn [app]. destruct strip eqn:Es; [|done]. cbn [drop_while].
          rewrite decide_False; [done|]. naive_solver. }
      exists st', (if strip then drop_while (λ c, c = SPACE) f else f). split; [|split].
      + destruct Hst' as [?| ->]; [by left|]. right. by right.
      + rewrite crlf_to_lf_id by apply Hbare. destruct strip; [|done]. by rewrite drop_while_fill.
      + intros c _. unfold write_field. cbn [fst snd]. apply Hp.
  Qed.

  Lemma field_delim x st fs rest : start st → good x →
    parse_evs dia (Reader st [] fs false) (evs (write_field q x ++ d :: rest)) =
    parse_evs dia (Reader START_FIELD [] (fs ++ [seen x]) false) (evs rest).
  Proof.
    intros Hst Hx. destruct (any_field x st fs rest Hst Hx) as (st' & f' & Hor & Hseen & Hp).
    pose proof Hcrnl as (Hdn & Hdc & Hqn & Hqc & Hen).
    rewrite Hp by (by left). rewrite evs_ch by done. cbn [parse_evs]. destruct Hor as [[-> Hs]|Hr].
    - rewrite start_delim by done. rewrite <- Hseen. destruct strip; cbn [strip_trailing]; by rewrite shown_nil.
    - rewrite ready_delim by done. by rewrite Hseen.
  Qed.
  Lemma field_nl x st fs rest : start st → good x →
    parse_evs dia (Reader st [] fs false) (evs (write_field q x ++ NL :: rest)) =
    let out := parse_evs dia reader0 (evs rest) in ((fs ++ [seen x]) :: out.1, out.2).
  Proof.
    intros Hst Hx. destruct (any_field x st fs rest Hst Hx) as (st' & f' & Hor & Hseen & Hp).
    rewrite Hp by (by right). rewrite evs_nl. cbn [parse_evs]. destruct Hor as [[-> Hs]|Hr].
    - rewrite start_nl by done. rewrite eat_eol. cbn [r_state]. rewrite decide_True by done.
      rewrite <- Hseen. destruct strip; cbn [strip_trailing]; by rewrite shown_nil.
    - rewrite ready_nl by done. rewrite eat_eol. cbn [r_state]. rewrite decide_True by done. by rewrite Hseen.
  Qed.

  Lemma row_nl row st fs rest : start st → row ≠ [] → (∀ x, x ∈ row → good x) →
    parse_evs dia (Reader st [] fs false) (evs (write_row d q row ++ NL :: rest)) =
    let out := parse_evs dia reader0 (evs rest) in ((fs ++ map seen row) :: out.1, out.2).
  Proof.
    revert st fs. induction row as [|x row IH]; intros st fs Hst Hne Hgood; [done|].
    destruct row as [|y row].
    - cbn [write_row map]. apply field_nl; [done|]. apply Hgood. set_solver.
    - change (write_row d q (x :: y :: row)) with (write_field q x ++ d :: write_row d q (y :: row)).
      rewrite <- app_assoc. cbn [app]. rewrite field_delim; [|done|apply Hgood; set_solver].
      rewrite IH; [|by right|done|intros; apply Hgood; set_solver]. cbv zeta. cbn [map].
      by rewrite <- app_assoc.
  Qed.

  Lemma rows_spec rows : (∀ row, row ∈ rows → row ≠ [] ∧ ∀ x, x ∈ row → good x) →
    parse_csv dia (write_rows d q rows) = (map (map seen) rows, true).
  Proof.
    intros H. rewrite parse_csv_evs.
    - induction rows as [|row rows IH]; [done|]. unfold write_rows. cbn [mbind list_bind]. fold (write_rows d q rows).
      rewrite <- app_assoc. cbn [app]. destruct (H row ltac:(set_solver)) as [Hne Hg].
      unfold reader0 at 1. rewrite row_nl; [|by left|exact Hne|exact Hg].
      rewrite IH by (intros; apply H; set_solver). done.
    - intros Hnil. destruct rows as [|row rows _] using rev_ind; [done|].
      unfold write_rows. rewrite bind_app. cbn. rewrite app_nil_r, app_assoc, last_snoc. done.
  Qed.
End fields.
