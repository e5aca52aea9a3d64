(** The pre-scan (C47), the import tasks (C46) and whole text imports. *)
From Coq Require Import Sorted.
From Verif.Spec Require Import PyList.
From Verif.Model Require Import Csv TextImport.
From Verif.Proof Require Import NamesProofs.
Local Open Scope Z_scope.

(** ** Lines and positions *)
Definition consumed (ls : list (list chr * Z)) : Z := foldr (λ l acc, l.2 + acc) 0 ls.

Lemma consumed_nil : consumed [] = 0.
Proof. done. Qed.
Lemma consumed_cons l ls : consumed (l :: ls) = l.2 + consumed ls.
Proof. done. Qed.

Lemma read_lines_from_app pre cur text : NL ∉ pre →
  read_lines_from cur (pre ++ text) = read_lines_from (cur ++ pre) text.
Proof.
  revert cur. induction pre as [|c pre IH]; intros cur H; cbn [app]; [by rewrite app_nil_r|].
  apply not_elem_of_cons in H as [Hc H]. cbn [read_lines_from].
  destruct (Z.eqb_spec c 10) as [->|_]; [done|]. rewrite IH by done. by rewrite <- app_assoc.
Qed.

Lemma split_nl (text : list chr) : NL ∉ text ∨ ∃ pre rest, text = pre ++ NL :: rest ∧ NL ∉ pre.
Proof.
  induction text as [|c text IH]; [left; set_solver|].
  destruct (decide (c = NL)) as [->|Hc]; [right; exists [], text; set_solver|].
  destruct IH as [IH|(pre & rest & -> & Hp)]; [left; set_solver|].
  right. exists (c :: pre), rest. set_solver.
Qed.

Lemma first_line text : text ≠ [] → ∃ line n, 0 < n <= Z.of_nat (length text) ∧
  read_lines text = (line, n) :: read_lines (drop (Z.to_nat n) text).
Proof.
  intros Hne. unfold read_lines. destruct (split_nl text) as [Hnl|(pre & rest & -> & Hp)].
  - exists text, (Z.of_nat (length text)). rewrite Nat2Z.id, drop_all.
    replace (read_lines_from [] text) with (read_lines_from [] (text ++ [])) by (by rewrite app_nil_r).
    rewrite read_lines_from_app by done. destruct text; [done|]. split; [cbn [length]; lia|done].
  - rewrite read_lines_from_app by done. cbn [app read_lines_from]. change (NL =? 10) with true. cbv iota zeta.
    eexists _, _. split; [|do 2 f_equal].
    + rewrite app_length. cbn [length]. lia.
    + replace (Z.to_nat (Z.of_nat (length pre) + 1)) with (length (pre ++ [NL])) by (rewrite app_length; cbn [length]; lia).
      replace (pre ++ NL :: rest) with ((pre ++ [NL]) ++ rest) by (by rewrite <- app_assoc).
      by rewrite drop_app.
Qed.

Lemma read_lines_nil : read_lines [] = [].
Proof. reflexivity. Qed.

Lemma lines_pos j text : let ls := take j (read_lines text) in
  0 <= consumed ls <= Z.of_nat (length text) ∧
  read_lines (drop (Z.to_nat (consumed ls)) text) = drop j (read_lines text).
Proof.
  cbv zeta. revert text. induction j as [|j IH]; intros text.
  { change (consumed (take 0 (read_lines text))) with 0. change (Z.to_nat 0) with 0%nat. rewrite !drop_0. split; [lia|done]. }
  destruct (decide (text = [])) as [->|Hne]; [done|].
  destruct (first_line text Hne) as (line & n & Hn & ->).
  cbn [take consumed foldr snd]. fold (consumed (take j (read_lines (drop (Z.to_nat n) text)))).
  destruct (IH (drop (Z.to_nat n) text)) as [Hb Hr]. rewrite drop_length in Hb. split; [lia|].
  cbn [drop]. rewrite <- Hr, drop_drop. f_equal. f_equal. lia.
Qed.

Lemma consumed_all text : consumed (read_lines text) = Z.of_nat (length text).
Proof.
  remember (length text) as n eqn:Hn. revert text Hn.
  induction (lt_wf n) as [n _ IH]. intros text ->.
  destruct (decide (text = [])) as [->|Hne]; [done|].
  destruct (first_line text Hne) as (line & n' & Hn & ->). cbn [consumed foldr snd].
  fold (consumed (read_lines (drop (Z.to_nat n') text))). rewrite (IH (length (drop (Z.to_nat n') text))); [| |reflexivity].
  - rewrite drop_length. lia.
  - rewrite drop_length. destruct text; [done|]. cbn [length] in *. lia.
Qed.

(** ** The reader is back in its initial state after every record *)
Definition clean (r : reader) : Prop :=
  (r_state r = START_RECORD ∨ r_state r = START_FIELD ∨ r_state r = EAT_CRNL) →
  r_field r = [] ∧ r_numeric r = false.

Lemma save_clean dia r r' st : save_field dia r = Some r' → clean (set_state st r').
Proof.
  unfold save_field. destruct (r_numeric r); [done|]. intros [= <-]. by intros _.
Qed.
Lemma save_state dia r r' : save_field dia r = Some r' → r_state r' = r_state r ∧ r_field r' = [] ∧ r_numeric r' = false.
Proof. unfold save_field. destruct (r_numeric r); [done|]. by intros [= <-]. Qed.
Lemma add_state r r' c : add_char r c = Some r' → r_state r' = r_state r ∧ r_numeric r' = r_numeric r.
Proof. unfold add_char. case_decide; [done|]. by intros [= <-]. Qed.

Ltac step_cases H :=
  repeat first
    [ progress cbn [mbind option_bind] in H
    | match type of H with
      | context [ (if ?b then _ else _) ] => destruct b eqn:?
      | context [ save_field ?d ?r ≫= _ ] => destruct (save_field d r) eqn:?; [|discriminate H]
      | context [ add_char ?r ?c ≫= _ ] => destruct (add_char r c) eqn:?; [|discriminate H]
      end ].

Lemma process_clean dia r ev r' : clean r → process_char dia r ev = Some r' → clean r'.
Proof.
  intros Hc H. destruct (r_state r) eqn:Est; unfold process_char in H; rewrite Est in H; step_cases H;
    try discriminate H; try (injection H as <-).
  all: try (eapply save_clean; eassumption).
  all: try (destruct (save_state _ _ _ H) as (Hs1 & Hs2 & Hs3); by intros _).
  all: try (intros [E|[E|E]]; discriminate E).
  all: try done.
  all: try (intros _; apply Hc; rewrite Est; tauto).
  all: try (destruct (add_state _ _ _ H) as [E _]; intros [E'|[E'|E']]; rewrite E, Est in E'; discriminate E').
Qed.
Lemma process_all_clean dia es r r' : clean r → process_all dia r es = Some r' → clean r'.
Proof.
  revert r. induction es as [|ev es IH]; intros r Hc H; cbn [process_all] in H; [by injection H as <-|].
  destruct (process_char dia r ev) as [r1|] eqn:E; [|discriminate H]. cbn [mbind option_bind] in H.
  eapply IH; [|exact H]. by eapply process_clean.
Qed.
Lemma reader0_clean : clean reader0.
Proof. by intros _. Qed.
Lemma clean_start r : clean r → r_state r = START_RECORD →
  Reader (r_state r) (r_field r) [] (r_numeric r) = reader0.
Proof. intros Hc E. destruct (Hc (or_introl E)) as [-> ->]. by rewrite E. Qed.

(** ** Records and positions of the loop *)
Lemma parse_loop_shift dia lines r pos pos' :
  (parse_loop dia r pos' lines).1 = map (λ p, (p.1, p.2 - pos + pos')) (parse_loop dia r pos lines).1 ∧
  (parse_loop dia r pos' lines).2 = (parse_loop dia r pos lines).2.
Proof.
  revert r pos pos'. induction lines as [|[line n] lines IH]; intros r pos pos'; [done|].
  cbn [parse_loop]. destruct (process_line dia r line) as [r1|]; [|done]. case_decide.
  - destruct (IH (Reader (r_state r1) (r_field r1) [] (r_numeric r1)) (pos + n) (pos' + n)) as [E1 E2].
    cbn [fst snd map]. rewrite E1, E2. split; [|done]. f_equal; [f_equal; lia|].
    apply map_ext. intros []. cbn. f_equal. lia.
  - destruct (IH r1 (pos + n) (pos' + n)) as [E1 E2]. rewrite E1, E2. split; [|done].
    apply map_ext. intros []. cbn. f_equal. lia.
Qed.
Lemma parse_loop_records dia lines r pos pos' :
  ((parse_loop dia r pos' lines).1.*1, (parse_loop dia r pos' lines).2) =
  ((parse_loop dia r pos lines).1.*1, (parse_loop dia r pos lines).2).
Proof.
  destruct (parse_loop_shift dia lines r pos pos') as [-> ->]. f_equal.
  change (map ?f ?l) with (f <$> l). rewrite <- list_fmap_compose. by apply list_fmap_ext.
Qed.

Lemma parse_loop_at dia lines r pos k x :
  clean r → (parse_loop dia r pos lines).1 !! k = Some x →
  ∃ j, x.2 = pos + consumed (take j lines) ∧
    parse_loop dia reader0 x.2 (drop j lines) =
    (drop (S k) (parse_loop dia r pos lines).1, (parse_loop dia r pos lines).2).
Proof.
  revert r pos k. induction lines as [|[line n] lines IH]; intros r pos k Hc; [done|].
  cbn [parse_loop]. destruct (process_line dia r line) as [r1|] eqn:E; [|done].
  apply process_all_clean in E; [|done]. case_decide as Hst.
  - rewrite clean_start by done. cbn [fst snd]. destruct k as [|k]; cbn [lookup list_lookup].
    + intros [= <-]. exists 1%nat. cbn [take drop]. rewrite drop_0, take_0, consumed_cons, consumed_nil. cbn [snd].
      split; [lia|]. by destruct (parse_loop _ _ _ _).
    + intros H. destruct (IH _ _ _ reader0_clean H) as (j & Hj & Hp). exists (S j).
      cbn [take drop]. rewrite consumed_cons. cbn [snd]. split; [lia|]. done.
  - intros H. destruct (IH _ _ _ E H) as (j & Hj & Hp). exists (S j).
    cbn [take drop]. rewrite consumed_cons. cbn [snd]. split; [lia|]. done.
Qed.

(** Parsing from the [k]-th position. *)
Lemma parse_from dia text k off :
  (0 :: (parse_loop dia reader0 0 (read_lines text)).1.*2) !! k = Some off →
  0 <= off <= Z.of_nat (length text) ∧
  parse_csv dia (drop (Z.to_nat off) text) =
  (drop k (parse_csv dia text).1, (parse_csv dia text).2).
Proof.
  destruct k as [|k].
  - intros [= <-]. rewrite !drop_0. split; [lia|]. by destruct (parse_csv _ _).
  - intros H. change ((parse_loop dia reader0 0 (read_lines text)).1.*2 !! k = Some off) in H. rewrite list_lookup_fmap in H.
    destruct ((parse_loop dia reader0 0 (read_lines text)).1 !! k) as [x|] eqn:Ex; [|done].
    cbn in H. injection H as <-.
    destruct (parse_loop_at _ _ _ _ _ _ reader0_clean Ex) as (j & Hj & Hp).
    destruct (lines_pos j text) as [Hb Hr]. rewrite Z.add_0_l in Hj. rewrite Hj. split; [done|].
    unfold parse_csv. rewrite Hr. rewrite (parse_loop_records _ _ _ x.2 0), Hp. cbn [fst snd].
    by rewrite fmap_drop.
Qed.

(** ** Without quoting every line is a record *)
Definition unquoted (r : reader) : Prop :=
  r_state r ∈ [START_RECORD; START_FIELD; ESCAPED_CHAR; IN_FIELD; EAT_CRNL].
Lemma process_unquoted dia r ev r' : d_quoting dia = QUOTE_NONE → unquoted r → process_char dia r ev = Some r' → unquoted r'.
Proof.
  intros Hq Hu H. unfold unquoted in *. rewrite !elem_of_cons, elem_of_nil in *.
  unfold process_char in H. rewrite bool_decide_false in H by (rewrite Hq; tauto).
  destruct Hu as [E|[E|[E|[E|[E|[]]]]]]; rewrite E in H; rewrite ?andb_false_r in H; step_cases H;
    try discriminate H; try (injection H as <-); cbn [set_state r_state]; try tauto.
  all: try (destruct (save_state _ _ _ H) as (-> & _ & _); cbn [set_state r_state]; tauto).
  all: try (destruct (add_state _ _ _ H) as [-> _]; rewrite E; tauto).
Qed.
Lemma newline_then dia r r' : d_quoting dia = QUOTE_NONE → unquoted r → process_char dia r (Ch 10) = Some r' →
  r_state r' = EAT_CRNL ∨ r_state r' = IN_FIELD.
Proof.
  intros Hq Hu H. unfold unquoted in *. rewrite !elem_of_cons, elem_of_nil in *.
  unfold process_char in H. change (is_crnl 10) with true in H. cbn [orb] in H.
  destruct Hu as [E|[E|[E|[E|[E|[]]]]]]; rewrite E in H; cbn [andb] in H.
  all: try (rewrite andb_false_r in H).
  all: try (destruct (save_field dia r) eqn:?; [|discriminate H]; cbn [mbind option_bind] in H; injection H as <-; by left).
  - destruct (add_char r 10); [|discriminate H]. cbn [mbind option_bind] in H.
    destruct (add_char _ 10); [|discriminate H]. cbn [mbind option_bind] in H. injection H as <-. by right.
  - injection H as <-. by left.
Qed.
Lemma line_record dia line r r' : d_quoting dia = QUOTE_NONE → unquoted r →
  process_line dia r line = Some r' → r_state r' = START_RECORD.
Proof.
  intros Hq. unfold process_line. revert r. induction line as [|c line IH]; intros r Hu H; cbn [app map process_all] in H.
  - destruct (process_char dia r (Ch 10)) as [r1|] eqn:E1; [|discriminate H]. cbn [mbind option_bind] in H.
    pose proof (newline_then _ _ _ Hq Hu E1) as Hst.
    destruct (process_char dia r1 EOL) as [r2|] eqn:E2; [|discriminate H]. cbn [mbind option_bind] in H. injection H as <-.
    unfold process_char in E2. destruct Hst as [Hst|Hst]; rewrite Hst in E2.
    + by injection E2 as <-.
    + rewrite bool_decide_false in E2 by done. cbn [andb orb is_crnl Z.eqb] in E2.
      destruct (save_field dia r1) eqn:Es; [|discriminate E2]. cbn [mbind option_bind] in E2. by injection E2 as <-.
  - destruct (process_char dia r (Ch c)) as [r1|] eqn:E1; [|discriminate H]. cbn [mbind option_bind] in H.
    eapply IH; [|exact H]. by eapply process_unquoted.
Qed.
Lemma loop_none dia lines pos : d_quoting dia = QUOTE_NONE →
  let out := parse_loop dia reader0 pos lines in
  out.1.*2 = take (length out.1) (line_offsets pos lines) ∧
  (out.2 = true → length out.1 = length lines).
Proof.
  intros Hq. cbv zeta. revert pos. induction lines as [|[line n] lines IH]; intros pos; [done|].
  cbn [parse_loop line_offsets]. destruct (process_line dia reader0 line) as [r1|] eqn:E; [|done].
  assert (unquoted reader0) as Hu by (unfold unquoted; set_solver).
  pose proof (line_record _ _ _ _ Hq Hu E) as Hst. rewrite decide_True by done.
  rewrite clean_start; [|eapply process_all_clean; [apply reader0_clean|exact E]|done].
  destruct (IH (pos + n)) as [IH1 IH2]. cbn [fst snd length take]. rewrite fmap_cons. cbn [snd]. split.
  - by rewrite IH1.
  - intros Hok. f_equal. by apply IH2.
Qed.
Lemma line_offsets_length pos lines : length (line_offsets pos lines) = length lines.
Proof. revert pos. induction lines as [|[] lines IH]; intros; [done|]. cbn. by rewrite IH. Qed.
Lemma parse_csv_length dia text : length (parse_csv dia text).1 = length (parse_loop dia reader0 0 (read_lines text)).1.
Proof. unfold parse_csv. cbn [fst]. by rewrite fmap_length. Qed.

(** ** The pre-scan *)
Lemma find_newlines_spec dia text offs n :
  find_newlines dia text = Some (offs, n) →
  let recs := (parse_csv dia text).1 in
  let ok := (parse_csv dia text).2 in
  (d_quoting dia ≠ QUOTE_NONE → ok = true) ∧
  (ok = true → n = Z.of_nat (length recs)) ∧
  Z.of_nat (length offs) = n + 1 ∧
  ∀ k off, (k <= length recs)%nat → offs !! k = Some off →
    0 <= off <= Z.of_nat (length text) ∧
    parse_csv dia (drop (Z.to_nat off) text) = (drop k recs, ok).
Proof.
  intros H. cbv zeta. rewrite parse_csv_length. unfold find_newlines in H. case_decide as Hq.
  - unfold find_newlines_no_qualifier in H. injection H as <- <-.
    destruct (loop_none dia (read_lines text) 0 Hq) as [Hoff Hlen].
    split; [done|]. split; [|split].
    + intros Hok. by rewrite Hlen.
    + cbn [length]. rewrite line_offsets_length. lia.
    + intros k off Hk Ho. apply parse_from. rewrite Hoff. destruct k as [|k]; [done|].
      change (line_offsets 0 (read_lines text) !! k = Some off) in Ho.
      change (take (length (parse_loop dia reader0 0 (read_lines text)).1) (line_offsets 0 (read_lines text)) !! k = Some off).
      by rewrite lookup_take by lia.
  - unfold find_newlines_qualifier in H.
    destruct (parse_loop dia reader0 0 (read_lines text)).2 eqn:Hok; [|done]. injection H as <- <-.
    split; [done|]. split; [done|]. split.
    + cbn [length]. rewrite fmap_length. lia.
    + intros k off _ Ho. by apply parse_from.
Qed.
Lemma find_newlines_total dia text : find_newlines dia text = None ↔
  d_quoting dia ≠ QUOTE_NONE ∧ (parse_csv dia text).2 = false.
Proof.
  unfold find_newlines, find_newlines_qualifier, parse_csv. cbn [snd]. case_decide; [naive_solver|].
  destruct (parse_loop _ _ _ _).2; naive_solver.
Qed.

(** Without quoting the last offset is the end of the file. *)
Lemma line_offsets_last pos lines : list.last (pos :: line_offsets pos lines) = Some (pos + consumed lines).
Proof.
  revert pos. induction lines as [|[l n] lines IH]; intros pos.
  - cbn. f_equal. lia.
  - cbn [line_offsets]. rewrite last_cons_cons, IH. cbn [consumed foldr snd]. f_equal. fold (consumed lines). lia.
Qed.
Lemma no_text_lost_none dia text offs n : d_quoting dia = QUOTE_NONE →
  find_newlines dia text = Some (offs, n) → list.last offs = Some (Z.of_nat (length text)).
Proof.
  intros Hq. unfold find_newlines. rewrite decide_True by done. unfold find_newlines_no_qualifier.
  intros [= <- <-]. rewrite line_offsets_last, consumed_all. f_equal. 
Qed.

(** ** Tasks *)
Lemma task_loop_spec fuel row_idx max_line ps : 0 < ps → (Z.to_nat (max_line - row_idx) <= fuel)%nat →
  task_loop fuel row_idx max_line ps ≫= (λ t, seqZ t.1 t.2) = seqZ row_idx (max_line - row_idx) ∧
  Forall (λ t, row_idx <= t.1 ∧ 0 < t.2 <= ps ∧ t.1 + t.2 <= max_line) (task_loop fuel row_idx max_line ps).
Proof.
  intros Hps. revert row_idx. induction fuel as [|fuel IH]; intros row_idx Hf.
  { cbn [task_loop mbind list_bind]. rewrite seqZ_nil by lia. split; [done|constructor]. }
  cbn [task_loop]. destruct (Z.ltb_spec row_idx max_line) as [Hlt|Hge].
  - cbv zeta. destruct (IH (Z.min (row_idx + ps) max_line)) as [IH1 IH2]; [lia|].
    cbn [mbind list_bind fst snd]. change (list_bind ?f ?l) with (l ≫= f). rewrite IH1. split.
    + set (nx := Z.min (row_idx + ps) max_line) in *.
      assert (row_idx < nx <= max_line) by lia.
      replace (seqZ row_idx (max_line - row_idx)) with (seqZ row_idx ((nx - row_idx) + (max_line - nx))) by (f_equal; lia).
      rewrite seqZ_app by lia. f_equal. f_equal; lia.
    + constructor; [cbn [fst snd]; lia|]. eapply list.Forall_impl; [exact IH2|]. cbn beta. intros; lia.
  - cbn [mbind list_bind]. rewrite seqZ_nil by lia. split; [done|constructor].
Qed.

Lemma import_tasks_spec newlines start limit hdr header_row ps :
  0 < ps → 0 <= newlines → (∀ s, start = Some s → 0 <= s) → 0 <= header_row →
  let first := default 0 start + (if hdr : bool then 1 else 0) + header_row in
  let count := match limit with
               | Some l => if decide (0 <= l) then Z.min l (newlines - first) else newlines - first
               | None => newlines - first
               end in
  let ts := import_tasks newlines start limit hdr header_row ps in
  ts ≫= (λ t, seqZ t.1 t.2) = seqZ first count ∧
  Forall (λ t, first <= t.1 ∧ 0 < t.2 <= ps ∧ t.1 + t.2 <= newlines) ts.
Proof.
  intros Hps Hn Hs Hh. cbv zeta. unfold import_tasks.
  set (off := (if hdr then 1 else 0) + header_row).
  replace (default 0 start + (if hdr then 1 else 0) + header_row) with (default 0 start + off) by (unfold off; lia).
  set (ri := default 0 start + off).
  set (ml := if 0 <=? default (-1) limit then Z.min newlines (default (-1) limit + default 0 start + off) else newlines).
  destruct (task_loop_spec (Z.to_nat (ml - ri)) ri ml ps Hps ltac:(lia)) as [H1 H2].
  assert (ml <= newlines) by (unfold ml; destruct (0 <=? _); lia).
  split.
  - rewrite H1. destruct limit as [l|].
    + assert (ml = if 0 <=? l then Z.min newlines (l + ri) else newlines) as -> by (unfold ml, ri; cbn; destruct (0 <=? l); lia).
      case_decide as Hl; destruct (Z.leb_spec 0 l); try lia; [|done].
      destruct (decide (ri <= newlines)); [f_equal; lia|]. rewrite !seqZ_nil by lia. done.
    + done.
  - eapply list.Forall_impl; [exact H2|]. cbn beta. intros; lia.
Qed.

(** ** Rows of a task *)
Lemma check_skip_kept s row : check_skip_empty s row = false ↔ kept s row.
Proof.
  destruct s; cbn [check_skip_empty kept].
  - done.
  - rewrite <- not_true_iff_false, existsb_exists. split.
    + intros H Hin. apply H. exists []. split; [by apply elem_of_list_In|by apply bool_decide_eq_true].
    + intros H ([|c f] & Hf & Hb); [apply H; by apply elem_of_list_In|done].
  - rewrite <- not_true_iff_false, forallb_forall. split.
    + intros H. destruct (decide (Exists (λ f, f ≠ []) row)) as [He|He]; [by apply list.Exists_exists in He|].
      exfalso. apply H. intros f Hf. apply bool_decide_eq_true. apply not_Exists_Forall in He; [|apply _].
      apply elem_of_list_In in Hf. pose proof (proj1 (list.Forall_forall _ _) He f Hf) as Hn. cbn beta in Hn.
      destruct f; [done|]. by destruct Hn.
    + intros (f & Hf & Hne) H. apply elem_of_list_In in Hf. specialize (H f Hf). apply bool_decide_eq_true in H. done.
Qed.

Lemma task_rows_spec s count idx recs :
  task_rows s count idx recs true = Some (filter (kept s) (take (Z.to_nat (count - idx)) recs)).
Proof.
  revert idx. induction recs as [|row recs IH]; intros idx; cbn [task_rows]; [by rewrite take_nil|].
  destruct (check_skip_empty s row) eqn:Es.
  - rewrite IH. f_equal. destruct (Z.to_nat (count - idx)) as [|m] eqn:Em.
    + replace (Z.to_nat (count - (idx + 1))) with 0%nat by lia. done.
    + replace (Z.to_nat (count - (idx + 1))) with m by lia. cbn [take].
      rewrite filter_cons_False; [done|]. rewrite <- check_skip_kept. congruence.
  - destruct (Z.leb_spec count idx).
    + replace (Z.to_nat (count - idx)) with 0%nat by lia. done.
    + rewrite IH. cbn [mbind option_bind]. replace (Z.to_nat (count - idx)) with (S (Z.to_nat (count - (idx + 1)))) by lia.
      cbn [take]. rewrite filter_cons_True by (by apply check_skip_kept). done.
Qed.

Lemma seq_found (I : list nat) k (fields : list (list chr)) :
  StronglySorted lt I → Forall (λ i, k <= i)%nat I →
  ∀ (mem : nat → Prop) `{∀ i, Decision (mem i)}, (∀ i, (k <= i)%nat → mem i ↔ i ∈ I) →
  let found := omap (λ p : nat * list chr, if decide (mem p.1) then Some p.2 else None) (zip (seq k (length fields)) fields) in
  found ++ replicate (length I - length found) [] = map (λ i, default [] (fields !! (i - k)%nat)) I ∧ (length found <= length I)%nat.
Proof.
  intros Hs Hk mem Hdec Hmem. cbv zeta. revert k I mem Hdec Hs Hk Hmem. induction fields as [|f fields IH]; intros k I mem Hdec Hs Hk Hmem.
  { cbn. split; [|lia]. rewrite Nat.sub_0_r. clear. induction I; [done|]. cbn. by rewrite IHI. }
  cbn [length seq zip zip_with omap list_omap fst snd].
  change (list_omap _ _ ?f ?l) with (omap f l).
  assert (∀ I', StronglySorted lt I' → Forall (λ i, S k <= i)%nat I' →
     map (λ i, default [] ((f :: fields) !! (i - k)%nat)) I' = map (λ i, default [] (fields !! (i - S k)%nat)) I') as Hmap.
  { clear. intros I' _ HI. induction HI as [|i I' Hi _ IHI]; [done|]. cbn [map]. rewrite IHI. f_equal.
    replace (i - k)%nat with (S (i - S k)) by lia. done. }
  destruct (decide (mem k)) as [Hm|Hm].
  - apply Hmem in Hm; [|lia]. destruct I as [|i I]; [set_solver|].
    inversion Hs as [|? ? Hs' Hlt]; subst. inversion Hk as [|? ? Hki Hk']; subst.
    assert (i = k) as ->.
    { apply elem_of_cons in Hm as [->|Hm]; [done|]. pose proof (proj1 (list.Forall_forall _ _) Hlt k Hm). cbn beta in *. lia. }
    destruct (IH (S k) I mem Hdec) as [IH1 IH2]; [done| | |].
    { eapply list.Forall_impl; [exact Hlt|]. cbn beta. intros; lia. }
    { intros i Hi. rewrite Hmem by lia. rewrite elem_of_cons. split; [|tauto]. intros [->|?]; [lia|done]. }
    cbn [app length map]. rewrite Nat.sub_diag. cbn [lookup list_lookup default]. split; [|lia].
    cbn [Nat.sub]. change (id f) with f. f_equal. rewrite IH1. symmetry. apply Hmap; [done|].
    eapply list.Forall_impl; [exact Hlt|]. cbn beta. intros; lia.
  - assert (Forall (λ i, S k <= i)%nat I) as Hk'.
    { apply list.Forall_forall. intros i Hi. pose proof (proj1 (list.Forall_forall _ _) Hk i Hi) as Hki. cbn beta in Hki.
      destruct (decide (i = k)) as [->|]; [|lia]. exfalso. apply Hm, Hmem; [lia|done]. }
    destruct (IH (S k) I mem Hdec) as [IH1 IH2]; [done|done| |].
    { intros i Hi. apply Hmem. lia. }
    split; [|lia]. rewrite IH1. symmetry. by apply Hmap.
Qed.
Lemma row_values_spec (I : list nat) fields : StronglySorted lt I →
  row_values I fields = map (λ i, default [] (fields !! i)) I.
Proof.
  intros Hs. unfold row_values.
  destruct (seq_found I 0 fields Hs) with (mem := λ i, i ∈ I) (H := λ i, decide (i ∈ I)) as [H _].
  { apply list.Forall_forall. intros; lia. } { done. }
  etrans; [exact H|]. apply map_ext. intros i. by rewrite Nat.sub_0_r.
Qed.
Lemma import_sorted {A} (P : nat * A → Prop) `{∀ x, Decision (P x)} k (l : list A) :
  StronglySorted lt (filter P (zip (seq k (length l)) l)).*1 ∧
  Forall (λ i, k <= i)%nat (filter P (zip (seq k (length l)) l)).*1.
Proof.
  revert k. induction l as [|x l IH]; intros k; [split; constructor|].
  cbn [length seq zip zip_with]. destruct (IH (S k)) as [IH1 IH2]. rewrite filter_cons. case_decide.
  - rewrite fmap_cons. cbn [fst]. split.
    + constructor; [done|]. eapply list.Forall_impl; [exact IH2|]. cbn beta. intros; lia.
    + constructor; [lia|]. eapply list.Forall_impl; [exact IH2|]. cbn beta. intros; lia.
  - split; [done|]. eapply list.Forall_impl; [exact IH2|]. cbn beta. intros; lia.
Qed.
Lemma import_lookup (P : nat * string → Prop) `{∀ x, Decision (P x)} (l : list string) j p :
  filter P (zip (seq 0 (length l)) l) !! j = Some p → l !! p.1 = Some p.2.
Proof.
  intros Hj. apply elem_of_list_lookup_2 in Hj. apply elem_of_list_filter in Hj as [_ Hj].
  apply elem_of_list_lookup in Hj as [i Hi]. destruct p as [a b].
  apply lookup_zip_with_Some in Hi as (a' & b' & [= <- <-] & Ha & Hb).
  apply lookup_seq in Ha as [-> _]. done.
Qed.
Lemma name_index_lookup name names : name ∈ names → names !! name_index name names = Some name.
Proof.
  induction names as [|n names IH]; intros H; [set_solver|]. cbn. case_decide; [by subst|].
  apply IH. set_solver.
Qed.

(** ** Whole imports *)
Lemma mapM_all {A B} (f : A → option B) (g : A → B) l : (∀ x, x ∈ l → f x = Some (g x)) → mapM f l = Some (map g l).
Proof.
  induction l as [|x l IH]; intros H; [done|]. cbn [mapM map]. rewrite H by set_solver. cbn [mbind option_bind].
  rewrite IH by (intros; apply H; set_solver). done.
Qed.
Lemma omap_seqZ {A} (l : list A) a c : 0 <= a → omap (λ i, l !! Z.to_nat i) (seqZ a c) = take (Z.to_nat c) (drop (Z.to_nat a) l).
Proof.
  intros Ha. destruct (decide (0 <= c)); [|rewrite seqZ_nil by lia; replace (Z.to_nat c) with 0%nat by lia; done].
  rewrite <- (Z2Nat.id c) at 1 by done. generalize (Z.to_nat c) as n. clear c l0. intros n. revert a Ha.
  induction n as [|n IH]; intros a Ha; [done|].
  rewrite seqZ_cons by lia. cbn [omap list_omap]. change (list_omap _ _ ?f ?l) with (omap f l).
  replace (Z.pred (Z.of_nat (S n))) with (Z.of_nat n) by lia. rewrite IH by lia.
  replace (Z.to_nat (Z.succ a)) with (S (Z.to_nat a)) by lia.
  destruct (l !! Z.to_nat a) as [x|] eqn:E.
  - rewrite (drop_S l x (Z.to_nat a)) by done. done.
  - apply lookup_ge_None in E. rewrite !drop_ge by lia. by rewrite !take_nil.
Qed.
Lemma tasks_rows {A} (l : list A) (ts : list (Z * Z)) : Forall (λ t, 0 <= t.1) ts →
  ts ≫= (λ t, take (Z.to_nat t.2) (drop (Z.to_nat t.1) l)) = omap (λ i, l !! Z.to_nat i) (ts ≫= λ t, seqZ t.1 t.2).
Proof.
  induction 1 as [|t ts Ht _ IH]; [done|]. cbn [mbind list_bind]. rewrite omap_app, omap_seqZ by done.
  f_equal. exact IH.
Qed.
Lemma filter_bind {A B} (P : B → Prop) `{∀ x, Decision (P x)} (f : A → list B) l :
  filter P (l ≫= f) = l ≫= (λ x, filter P (f x)).
Proof. induction l as [|x l IH]; [done|]. cbn [mbind list_bind]. rewrite list.filter_app. f_equal. exact IH. Qed.
Lemma map_bind {A B C} (g : B → C) (f : A → list B) l : map g (l ≫= f) = l ≫= (λ x, map g (f x)).
Proof. induction l as [|x l IH]; [done|]. cbn [mbind list_bind]. rewrite map_app. f_equal. exact IH. Qed.
Lemma concat_map_bind {A B} (f : A → list B) l : concat (map f l) = l ≫= f.
Proof. induction l as [|x l IH]; [done|]. cbn [map mbind list_bind concat]. f_equal. exact IH. Qed.

(** The rows of all tasks, one after the other. *)
Lemma tasks_data {A} (recs : list A) start limit (hdr : bool) header_row ps :
  0 < ps → (∀ i, start = Some i → 0 <= i) → (∀ l, limit = Some l → 0 <= l) → 0 <= header_row →
  import_tasks (Z.of_nat (length recs)) start limit hdr header_row ps ≫=
    (λ t, take (Z.to_nat t.2) (drop (Z.to_nat t.1) recs)) =
  let data := drop (Z.to_nat (default 0 start)) (drop (Z.to_nat (header_row + (if hdr then 1 else 0))) recs) in
  match limit with Some l => take (Z.to_nat l) data | None => data end.
Proof.
  intros Hps Hstart Hlimit Hhr. set (n := Z.of_nat (length recs)).
  destruct (import_tasks_spec n start limit hdr header_row ps Hps ltac:(lia) Hstart Hhr) as [Hts1 Hts2].
  set (ts := import_tasks n start limit hdr header_row ps) in *.
  assert (0 <= default 0 start) as Hs0 by (destruct start as [i|]; cbn; [by apply Hstart|lia]).
  rewrite tasks_rows.
  2:{ eapply list.Forall_impl; [exact Hts2|]. cbn beta. intros t Ht. destruct hdr; lia. }
  rewrite Hts1, omap_seqZ by (destruct hdr; lia). cbv zeta. rewrite drop_drop.
  replace (Nat.add (Z.to_nat (header_row + (if hdr then 1 else 0))) (Z.to_nat (default 0 start)))
    with (Z.to_nat (default 0 start + (if hdr then 1 else 0) + header_row)) by (destruct hdr; lia).
  set (a := Z.to_nat (default 0 start + (if hdr then 1 else 0) + header_row)).
  assert (length (drop a recs) = Z.to_nat (n - (default 0 start + (if hdr then 1 else 0) + header_row))) as Hl
    by (rewrite drop_length; unfold a, n; destruct hdr; lia).
  destruct limit as [l|].
  - specialize (Hlimit l eq_refl). rewrite decide_True by done.
    rewrite Z2Nat.inj_min, <- Hl, <- take_take. by rewrite (take_ge (drop a recs) (length (drop a recs))) by lia.
  - rewrite take_ge by lia. done.
Qed.

(** An import whose tasks all succeed. *)
Lemma import_with_spec {X} (task : _ → _ → _ → option (list (list X))) (page : nat → list (list (list chr)) → list X)
    hn digits nl parse_at columns (hdr : bool) header_row ps start limit offs recs header fields names :
  0 < ps → (∀ i, start = Some i → 0 <= i) → 0 <= header_row →
  nl = Some (offs, Z.of_nat (length recs)) →
  (∀ k, (k <= length recs)%nat → ∃ off, offs !! k = Some off ∧ parse_at off = (drop k recs, true)) →
  recs !! Z.to_nat header_row = Some header →
  field_names hn digits hdr header = Some fields →
  let imp := default fields columns in
  (∀ c, c ∈ imp → c ∈ fields) → dedup_headers imp = Some names →
  let ts := import_tasks (Z.of_nat (length recs)) start limit hdr header_row ps in
  (∀ I t, StronglySorted lt I → (∀ ix, ix ∈ I → ∃ src, fields !! ix = Some src ∧ src ∈ imp) → t ∈ ts →
    task (drop (Z.to_nat t.1) recs, true) I t.2 =
    Some (map (λ ix, page ix (take (Z.to_nat t.2) (drop (Z.to_nat t.1) recs))) I)) →
  ∃ tbl, import_with hn digits nl parse_at task columns hdr header_row ps start limit = Some tbl ∧
    tbl.*1 = names ∧ length tbl = length imp ∧
    ∀ i name pages src, tbl !! i = Some (name, pages) → imp !! i = Some src →
      ∃ ix, fields !! ix = Some src ∧
        pages = map (λ t, page ix (take (Z.to_nat t.2) (drop (Z.to_nat t.1) recs))) ts.
Proof.
  intros Hps Hstart Hhr Hnl Hoff Hheader Hfields imp Himp Hnames ts Htask.
  pose proof (lookup_lt_Some _ _ _ Hheader) as Hhlt. subst nl.
  unfold import_with. cbn [mbind option_bind]. set (n := Z.of_nat (length recs)) in *.
  replace ((0 <? n) && (header_row <? n)) with true by (symmetry; apply andb_true_iff; rewrite !Z.ltb_lt; lia).
  destruct (Hoff (Z.to_nat header_row)) as (off0 & Ho0 & Hp0); [lia|]. rewrite Ho0. cbn [mbind option_bind].
  rewrite Hp0. cbn [fst]. rewrite (drop_S _ header) by done. cbn [head mbind option_bind]. rewrite Hfields. cbn [mbind option_bind].
  unfold import_columns. fold imp. rewrite decide_True by (apply list.Forall_forall; exact Himp).
  rewrite Hnames. cbn [mbind option_bind fst snd].
  set (imports := filter (λ p : nat * string, p.2 ∈ imp) (zip (seq 0 (length fields)) fields)).
  destruct (import_sorted (λ p : nat * string, p.2 ∈ imp) 0 fields) as [Hsorted _]. fold imports in Hsorted.
  destruct (import_tasks_spec n start limit hdr header_row ps Hps ltac:(lia) Hstart Hhr) as [Hts1 Hts2].
  fold ts in Hts1, Hts2 |- *.
  assert (0 <= default 0 start) as Hs0 by (destruct start as [i|]; cbn; [by apply Hstart|lia]).
  set (trows := λ t : Z * Z, take (Z.to_nat t.2) (drop (Z.to_nat t.1) recs)) in *.
  rewrite (mapM_all _ (λ t, map (λ ix, page ix (trows t)) imports.*1)).
  2:{ intros t Ht. pose proof (proj1 (list.Forall_forall _ _) Hts2 t Ht) as Ht2. cbn beta in Ht2.
      destruct hdr; destruct (Hoff (Z.to_nat t.1)) as (off & -> & Hp); try lia; cbn [mbind option_bind];
      rewrite Hp; (apply Htask; [done| |done]);
      intros ix Hix; apply elem_of_list_fmap in Hix as ([ix' nm] & -> & Hin); cbn [fst];
      unfold imports in Hin; pose proof Hin as Hin2; apply elem_of_list_filter in Hin2 as [Hnm _];
      apply elem_of_list_lookup in Hin as [jj Hj]; exists nm; (split; [exact (import_lookup _ _ _ _ Hj)|exact Hnm]). }
  cbn [mbind option_bind]. eexists. split; [reflexivity|].
  destruct (dedup_headers_spec imp) as (ns & Hns & _ & Hnlen & _). rewrite Hnames in Hns. injection Hns as <-.
  split; [|split].
  - change (map ?f ?l) with (f <$> l) at 1. rewrite <- list_fmap_compose.
    transitivity (fst <$> zip names imp); [by apply list_fmap_ext; intros ? []|].
    apply fst_zip. lia.
  - rewrite map_length, zip_with_length. lia.
  - intros i name pages src Hi Hsrc. change (map ?f (zip names imp)) with (f <$> zip names imp) in Hi.
    rewrite list_lookup_fmap in Hi. destruct (zip names imp !! i) as [[nm im]|] eqn:Hz; [|done].
    cbn [fmap option_fmap option_map fst snd] in Hi. injection Hi as -> <-.
    apply lookup_zip_with_Some in Hz as (x & y & [= <- <-] & Hx & Hy).
    rewrite Hsrc in Hy. injection Hy as <-.
    assert (src ∈ imports.*2) as Hin.
    { assert (src ∈ imp) as Hi2 by (by eapply elem_of_list_lookup_2). pose proof (Himp _ Hi2) as Hf.
      apply elem_of_list_lookup in Hf as [ix Hix]. apply elem_of_list_fmap. exists (ix, src). split; [done|].
      unfold imports. apply elem_of_list_filter. split; [done|]. apply elem_of_list_lookup_2 with ix.
      apply lookup_zip_with_Some. exists ix, src. split; [done|]. split; [|done].
      apply lookup_seq. split; [lia|]. by eapply lookup_lt_Some. }
    apply name_index_lookup in Hin. set (j := name_index src imports.*2) in *.
    rewrite list_lookup_fmap in Hin. destruct (imports !! j) as [[ix nm']|] eqn:Hj; [|done].
    cbn in Hin. injection Hin as ->.
    exists ix. split; [exact (import_lookup _ _ _ _ Hj)|].
    assert (imports.*1 !! j = Some ix) as Hj1 by (rewrite list_lookup_fmap, Hj; done).
    rewrite map_map. apply map_ext. intros t. change (map ?f imports.*1) with (f <$> imports.*1).
    rewrite list_lookup_fmap, Hj1. done.
Qed.

Lemma scanned dia text recs : parse_csv dia text = (recs, true) →
  ∃ offs, find_newlines dia text = Some (offs, Z.of_nat (length recs)) ∧
    ∀ k, (k <= length recs)%nat → ∃ off, offs !! k = Some off ∧ parse_csv dia (drop (Z.to_nat off) text) = (drop k recs, true).
Proof.
  intros Hparse. destruct (find_newlines dia text) as [[offs n]|] eqn:Hfind.
  2:{ apply find_newlines_total in Hfind as [_ Hf]. rewrite Hparse in Hf. done. }
  destruct (find_newlines_spec _ _ _ _ Hfind) as (_ & Hn & Hlen & Hat). rewrite Hparse in Hn, Hat. cbn [fst snd] in Hn, Hat.
  specialize (Hn eq_refl). subst n. exists offs. split; [done|].
  intros k Hk. destruct (lookup_lt_is_Some_2 offs k) as [off Ho]; [lia|]. exists off. split; [done|]. by apply Hat.
Qed.

Lemma text_import_spec hn digits dia text columns (hdr : bool) header_row ps s start limit recs header fields names :
  0 < ps → (∀ i, start = Some i → 0 <= i) → (∀ l, limit = Some l → 0 <= l) → 0 <= header_row →
  parse_csv dia text = (recs, true) → recs !! Z.to_nat header_row = Some header →
  field_names hn digits hdr header = Some fields →
  let imp := default fields columns in
  (∀ c, c ∈ imp → c ∈ fields) → dedup_headers imp = Some names →
  ∃ tbl, text_import hn digits dia text columns hdr header_row ps s start limit = Some tbl ∧
    tbl.*1 = names ∧ length tbl = length imp ∧
    ∀ i name pages src, tbl !! i = Some (name, pages) → imp !! i = Some src →
      ∃ ix, fields !! ix = Some src ∧
        concat pages = map (λ row, default [] (row !! ix)) (wanted_rows s start limit hdr header_row recs) ∧
        Forall (λ page, Z.of_nat (length page) <= ps) pages.
Proof.
  intros Hps Hstart Hlimit Hhr Hparse Hheader Hfields imp Himp Hnames.
  destruct (scanned _ _ _ Hparse) as (offs & Hfind & Hoff).
  destruct (import_with_spec (reader_task s) (λ ix rows, map (λ row, default [] (row !! ix)) (filter (kept s) rows))
    hn digits (find_newlines dia text) (λ offset, parse_csv dia (drop (Z.to_nat offset) text))
    columns hdr header_row ps start limit offs recs header fields names Hps Hstart Hhr Hfind Hoff Hheader Hfields Himp Hnames)
    as (tbl & Htbl & Hn & Hl & Hcols).
  { intros I t Hs _ Ht. unfold reader_task. cbn [fst snd]. rewrite task_rows_spec. cbn [mbind option_bind].
    f_equal. rewrite Z.sub_0_r. apply list_eq. intros j. change (map ?f ?l) with (f <$> l). rewrite !list_lookup_fmap.
    destruct (I !! j) as [ix|] eqn:Ej.
    - rewrite lookup_seq_lt by (by eapply lookup_lt_Some). cbn [fmap option_fmap option_map]. cbn [Nat.add].
      f_equal. apply map_ext. intros row. rewrite row_values_spec by done. change (map ?f ?l) with (f <$> l).
      by rewrite list_lookup_fmap, Ej.
    - rewrite lookup_seq_ge by (by apply lookup_ge_None in Ej). done. }
  exists tbl. split; [exact Htbl|]. split; [done|]. split; [done|].
  intros i name pages src Hi Hsrc. destruct (Hcols i name pages src Hi Hsrc) as (ix & Hix & ->). exists ix. split; [done|].
  split.
  - rewrite concat_map_bind. rewrite <- map_bind, <- filter_bind. unfold wanted_rows. do 2 f_equal.
    rewrite tasks_data by done. done.
  - apply list.Forall_forall. intros page Hpg. apply elem_of_list_fmap in Hpg as (t & -> & Ht).
    destruct (import_tasks_spec (Z.of_nat (length recs)) start limit hdr header_row ps Hps ltac:(lia) Hstart Hhr) as [_ Hts2].
    pose proof (proj1 (list.Forall_forall _ _) Hts2 t Ht) as Ht2. cbn beta in Ht2.
    rewrite map_length.
    assert (∀ (l : list (list (list chr))), (length (filter (kept s) l) <= length l)%nat) as Hfl
      by (intros; apply filter_length).
    etrans; [apply Nat2Z.inj_le, Hfl|]. rewrite take_length. lia.
Qed.
