(** Files in several encodings give the same table (C81). *)
From Coq Require Import String.
From Verif.Model Require Import EncFile.
From Verif.Proof Require Import CsvScan NpyProofs.
Local Open Scope Z_scope.

(** ** Imports with the same records at the same places *)
Lemma mapM_ext_in {A B} (f g : A → option B) l : (∀ x, x ∈ l → f x = g x) → mapM f l = mapM g l.
Proof.
  induction l as [|x l IH]; intros H; [done|]. cbn [mapM]. rewrite (H x) by set_solver.
  destruct (g x); [|done]. cbn [mbind option_bind]. rewrite IH; [done|]. intros y Hy. apply H. set_solver.
Qed.

Definition same_places (offs offs' : list Z) (parse_at parse_at' : Z → list (list (list chr)) * bool) : Prop :=
  List.length offs = List.length offs' ∧
  ∀ k off off', offs !! k = Some off → offs' !! k = Some off' → parse_at off = parse_at' off'.

Lemma import_with_ext {X} (task : _ → _ → _ → option (list (list X))) hn digits nl nl' p p' columns (hdr : bool) header_row ps start limit :
  (nl = None ∧ nl' = None) ∨
  (∃ offs offs' n, nl = Some (offs, n) ∧ nl' = Some (offs', n) ∧ same_places offs offs' p p') →
  import_with hn digits nl p task columns hdr header_row ps start limit =
  import_with hn digits nl' p' task columns hdr header_row ps start limit.
Proof.
  intros [[-> ->]|(offs & offs' & n & -> & -> & Hl & Hs)]; [done|].
  unfold import_with. cbn [mbind option_bind]. destruct ((0 <? n) && (header_row <? n)); [|done].
  assert (∀ k {B} (F : _ → option B), (offs !! k ≫= λ o, F (p o)) = (offs' !! k ≫= λ o, F (p' o))) as Hk.
  { intros k B F. destruct (offs !! k) as [o|] eqn:E1, (offs' !! k) as [o'|] eqn:E2; cbn [mbind option_bind]; [|exfalso|exfalso|done].
    - by rewrite (Hs _ _ _ E1 E2).
    - apply lookup_lt_Some in E1. apply lookup_ge_None in E2. lia.
    - apply lookup_lt_Some in E2. apply lookup_ge_None in E1. lia. }
  rewrite (Hk (Z.to_nat header_row) _ (λ out, first_line ← head out.1; _)). 
  destruct (offs' !! Z.to_nat header_row) as [o|]; cbn [mbind option_bind]; [|done].
  destruct (head (p' o).1) as [fl|]; cbn [mbind option_bind]; [|done].
  destruct (field_names hn digits hdr fl) as [fields|]; cbn [mbind option_bind]; [|done].
  destruct (import_columns fields columns) as [cols|]; cbn [mbind option_bind]; [|done].
  rewrite (mapM_ext_in _ (λ t : Z * Z, offset ← offs' !! Z.to_nat t.1; task (p' offset) cols.1.*1 t.2)); [done|].
  intros t _. apply (Hk (Z.to_nat t.1) _ (λ out, task out cols.1.*1 t.2)).
Qed.

(** ** The places of the records *)
Definition records (dia : dialect) (lines : list (list chr * Z)) : list (list (list chr)) * bool :=
  let out := parse_loop dia reader0 0 lines in (out.1.*1, out.2).

Lemma records_pos dia pos lines : let out := parse_loop dia reader0 pos lines in (out.1.*1, out.2) = records dia lines.
Proof. apply parse_loop_records. Qed.

Lemma line_offsets_lookup pos lines k : (k <= List.length lines)%nat →
  (pos :: line_offsets pos lines) !! k = Some (pos + consumed (take k lines)).
Proof.
  revert pos lines. induction k as [|k IH]; intros pos lines Hk; [cbn; f_equal; rewrite take_0, consumed_nil; lia|].
  destruct lines as [|[line n] lines]; [cbn [List.length] in Hk; lia|]. cbn [List.length] in Hk. cbn [line_offsets take].
  change ((pos + n :: line_offsets (pos + n) lines) !! k = Some (pos + consumed ((line, n) :: take k lines))).
  rewrite IH by lia. rewrite consumed_cons. cbn [snd]. f_equal. lia.
Qed.

(** [at_ p] are the lines from position [p] on. *)
Definition seekable (pos : Z) (ls : list (list chr * Z)) (at_ : Z → list (list chr * Z)) : Prop :=
  ∀ j, at_ (pos + consumed (take j ls)) = drop j ls.

Lemma newlines_none dia pos ls offs n at_ : d_quoting dia = QUOTE_NONE → seekable pos ls at_ →
  file_newlines dia pos ls = Some (offs, n) →
  n = Z.of_nat (List.length ls) ∧ List.length offs = S (List.length ls) ∧
  ∀ k off, offs !! k = Some off → records dia (at_ off) = records dia (drop k ls).
Proof.
  intros Hq Hs. unfold file_newlines. rewrite decide_True by done. intros [= <- <-].
  split; [done|]. split; [cbn; by rewrite line_offsets_length|].
  intros k off Ho. pose proof (lookup_lt_Some _ _ _ Ho) as Hlt. cbn [List.length] in Hlt. rewrite line_offsets_length in Hlt.
  rewrite line_offsets_lookup in Ho by lia. injection Ho as <-. by rewrite Hs.
Qed.

Lemma newlines_quoted dia pos ls at_ : d_quoting dia ≠ QUOTE_NONE → seekable pos ls at_ →
  (file_newlines dia pos ls = None ∧ (records dia ls).2 = false) ∨
  ∃ offs, file_newlines dia pos ls = Some (offs, Z.of_nat (List.length (records dia ls).1)) ∧
    (records dia ls).2 = true ∧ List.length offs = S (List.length (records dia ls).1) ∧
    ∀ k off, offs !! k = Some off → records dia (at_ off) = (drop k (records dia ls).1, (records dia ls).2).
Proof.
  intros Hq Hs. unfold file_newlines. rewrite decide_False by done. rewrite <- (records_pos dia pos). cbv zeta. cbn [fst snd].
  destruct (parse_loop dia reader0 pos ls).2 eqn:Hok; [right|by left].
  eexists. split; [rewrite fmap_length; reflexivity|]. split; [done|]. split; [cbn; by rewrite !fmap_length|].
  intros [|k] off.
  - intros [= <-]. replace pos with (pos + consumed (take 0 ls)) at 1 by (rewrite take_0, consumed_nil; lia).
    rewrite Hs, !drop_0, <- (records_pos dia pos). cbv zeta. by rewrite Hok.
  - intros H. change ((parse_loop dia reader0 pos ls).1.*2 !! k = Some off) in H. rewrite list_lookup_fmap in H.
    destruct ((parse_loop dia reader0 pos ls).1 !! k) as [x|] eqn:Ex; [|done]. cbn in H. injection H as <-.
    destruct (parse_loop_at _ _ _ _ _ _ reader0_clean Ex) as (j & Hj & Hp).
    rewrite Hj, Hs, <- (records_pos dia x.2), Hp. cbn [fst snd]. by rewrite fmap_drop, Hok.
Qed.

Lemma same_import {X} (task : _ → _ → _ → option (list (list X))) hn digits dia pos ls at_ pos' ls' at_' columns (hdr : bool) header_row ps start limit :
  seekable pos ls at_ → seekable pos' ls' at_' → List.length ls = List.length ls' →
  (∀ k, records dia (drop k ls) = records dia (drop k ls')) →
  import_with hn digits (file_newlines dia pos ls) (λ o, records dia (at_ o)) task columns hdr header_row ps start limit =
  import_with hn digits (file_newlines dia pos' ls') (λ o, records dia (at_' o)) task columns hdr header_row ps start limit.
Proof.
  intros Hs Hs' Hl Hr. apply import_with_ext. destruct (decide (d_quoting dia = QUOTE_NONE)) as [Hq|Hq].
  - right. destruct (file_newlines dia pos ls) as [[offs n]|] eqn:E1.
    2:{ unfold file_newlines in E1. by rewrite decide_True in E1. }
    destruct (file_newlines dia pos' ls') as [[offs' n']|] eqn:E2.
    2:{ unfold file_newlines in E2. by rewrite decide_True in E2. }
    destruct (newlines_none _ _ _ _ _ _ Hq Hs E1) as (-> & Hlo & Ho).
    destruct (newlines_none _ _ _ _ _ _ Hq Hs' E2) as (-> & Hlo' & Ho').
    exists offs, offs', (Z.of_nat (List.length ls)). rewrite Hl at 3. split; [done|]. split; [done|]. split; [lia|].
    intros k off off' H H'. by rewrite (Ho _ _ H), (Ho' _ _ H'), Hr.
  - pose proof (Hr 0%nat) as Hr0. rewrite !drop_0 in Hr0.
    destruct (newlines_quoted dia pos ls at_ Hq Hs) as [[E1 F1]|(offs & E1 & T1 & Hlo & Ho)];
    destruct (newlines_quoted dia pos' ls' at_' Hq Hs') as [[E2 F2]|(offs' & E2 & T2 & Hlo' & Ho')].
    + by left.
    + rewrite Hr0 in F1. congruence.
    + rewrite Hr0 in T1. congruence.
    + right. rewrite <- Hr0 in E2, Hlo', Ho'. eexists _, _, _. split; [exact E1|]. split; [exact E2|]. split; [lia|].
      intros k off off' H H'. by rewrite (Ho _ _ H), (Ho' _ _ H').
Qed.

(** ** Lines that give the same records *)
Lemma records_same_lines dia ls ls' : Forall2 (λ l l', l.1 = l'.1) ls ls' →
  ∀ k, records dia (drop k ls) = records dia (drop k ls').
Proof.
  intros H. assert (∀ r pos pos' ls ls', Forall2 (λ l l' : list chr * Z, l.1 = l'.1) ls ls' →
    (parse_loop dia r pos ls).1.*1 = (parse_loop dia r pos' ls').1.*1 ∧
    (parse_loop dia r pos ls).2 = (parse_loop dia r pos' ls').2) as Hgen.
  { intros r pos pos' l1 l2 HF. revert r pos pos'. induction HF as [|[a n] [b m] l1 l2 Hab _ IH]; intros; [done|].
    cbn [fst] in Hab. subst b. cbn [parse_loop]. destruct (process_line dia r a) as [r1|]; [|done]. case_decide.
    - destruct (IH (Reader (r_state r1) (r_field r1) [] (r_numeric r1)) (pos + n) (pos' + m)) as [E1 E2].
      cbn [fst snd]. rewrite !fmap_cons. cbn [fst]. by rewrite E1, E2.
    - apply IH. }
  intros k. destruct (Hgen reader0 0 0 _ _ (list.Forall2_drop _ _ _ k H)) as [E1 E2].
  unfold records. cbv zeta. by rewrite E1, E2.
Qed.

Definition quiet (dia : dialect) (line : list chr) : Prop :=
  (d_quoting dia = QUOTE_NONE ∨ quotechar dia ∉ line) ∧ escapechar dia ∉ line.
Definition quiet_state (r : reader) : Prop :=
  r_state r = START_RECORD ∨ r_state r = START_FIELD ∨ r_state r = IN_FIELD ∨ r_state r = EAT_CRNL.

Lemma process_quiet dia r c r' : (d_quoting dia = QUOTE_NONE ∨ c ≠ quotechar dia) → c ≠ escapechar dia →
  quiet_state r → process_char dia r (Ch c) = Some r' → quiet_state r'.
Proof.
  intros Hq He Hst H. unfold quiet_state in *.
  assert (Z.eqb c (quotechar dia) && bool_decide (d_quoting dia ≠ QUOTE_NONE) = false) as Hq'.
  { destruct Hq as [Hq|Hq]; [rewrite bool_decide_false by (by rewrite Hq; tauto); apply andb_false_r|].
    rewrite (proj2 (Z.eqb_neq _ _) Hq). done. }
  assert (Z.eqb c (escapechar dia) = false) as He' by (by apply Z.eqb_neq).
  unfold process_char in H. rewrite Hq', He' in H.
  destruct Hst as [E|[E|[E|E]]]; rewrite E in H; cbn [andb orb] in H; step_cases H;
    try discriminate H; try (injection H as <-); cbn [set_state r_state]; try tauto.
  all: try (destruct (save_state _ _ _ H) as (-> & _ & _); cbn [set_state r_state]; tauto).
  all: try (destruct (add_state _ _ _ H) as [-> _]; rewrite E; tauto).
Qed.

Lemma quiet_break dia r : quiet_state r →
  process_char dia r (Ch 13) = process_char dia r (Ch 10) ∧
  ∀ r', process_char dia r (Ch 10) = Some r' → r_state r' = EAT_CRNL.
Proof.
  intros Hst. unfold process_char. change (is_crnl 13) with true. change (is_crnl 10) with true.
  destruct Hst as [E|[E|[E|E]]]; rewrite E; cbn [orb].
  3: rewrite bool_decide_false by done; cbn [andb].
  1-3: destruct (save_field dia r) as [r1|]; cbn [mbind option_bind]; [|done]; split; [done|by intros r' [= <-]].
  split; [done|by intros r' [= <-]].
Qed.
Lemma eat_break dia r : r_state r = EAT_CRNL →
  process_char dia r (Ch 10) = Some r ∧ process_char dia r EOL = Some (set_state START_RECORD r).
Proof. intros E. unfold process_char. by rewrite E. Qed.
Lemma quiet_end dia r : quiet_state r →
  process_all dia r [Ch 13; Ch 10; EOL] = process_all dia r [Ch 10; EOL] ∧
  ∀ r', process_all dia r [Ch 10; EOL] = Some r' → r_state r' = START_RECORD.
Proof.
  intros Hst. cbn [process_all]. destruct (quiet_break dia r Hst) as [-> H].
  destruct (process_char dia r (Ch 10)) as [r1|]; cbn [mbind option_bind]; [|done].
  destruct (eat_break dia r1 (H _ eq_refl)) as [E1 E2]. rewrite E1. cbn [mbind option_bind]. rewrite E2.
  split; [done|by intros r' [= <-]].
Qed.

Lemma process_all_app dia r a b : process_all dia r (a ++ b) = (process_all dia r a ≫= λ r', process_all dia r' b).
Proof.
  revert r. induction a as [|e a IH]; intros r; [done|]. cbn [app process_all].
  destruct (process_char dia r e); [|done]. cbn [mbind option_bind]. apply IH.
Qed.
Lemma process_chars_quiet dia line r r' : quiet dia line → quiet_state r →
  process_all dia r (map Ch line) = Some r' → quiet_state r'.
Proof.
  intros [Hq He]. revert r. induction line as [|c line IH]; intros r Hst H; cbn [map process_all] in H; [by injection H as <-|].
  destruct (process_char dia r (Ch c)) as [r1|] eqn:E; [|discriminate H]. cbn [mbind option_bind] in H.
  apply not_elem_of_cons in He as [He1 He]. eapply IH; [| |eapply process_quiet; [| |exact Hst|exact E]|exact H].
  - destruct Hq as [|Hq]; [by left|right; set_solver].
  - done.
  - destruct Hq as [|Hq]; [by left|right; set_solver].
  - done.
Qed.
Lemma quiet_line dia line : quiet dia line →
  process_line dia reader0 (line ++ [13]) = process_line dia reader0 line ∧
  ∀ r, process_line dia reader0 line = Some r → r_state r = START_RECORD.
Proof.
  intros Hq. unfold process_line. rewrite !map_app, <- !app_assoc, !process_all_app.
  destruct (process_all dia reader0 (map Ch line)) as [r1|] eqn:E; cbn [mbind option_bind]; [|done].
  apply process_chars_quiet in E; [|done|by left]. exact (quiet_end dia r1 E).
Qed.

Lemma records_quiet_lines dia ls ls' :
  Forall2 (λ l l', quiet dia l.1 ∧ (l'.1 = l.1 ∨ l'.1 = l.1 ++ [13])) ls ls' →
  ∀ k, records dia (drop k ls) = records dia (drop k ls').
Proof.
  intros H. assert (∀ pos pos' ls ls', Forall2 (λ l l' : list chr * Z, quiet dia l.1 ∧ (l'.1 = l.1 ∨ l'.1 = l.1 ++ [13])) ls ls' →
    (parse_loop dia reader0 pos ls).1.*1 = (parse_loop dia reader0 pos' ls').1.*1 ∧
    (parse_loop dia reader0 pos ls).2 = (parse_loop dia reader0 pos' ls').2) as Hgen.
  { intros pos pos' l1 l2 HF. revert pos pos'. induction HF as [|[a n] [b m] l1 l2 [Hq Hab] _ IH]; intros; [done|].
    cbn [fst] in Hab, Hq. destruct (quiet_line dia a Hq) as [Ea Hst]. cbn [parse_loop].
    assert (process_line dia reader0 b = process_line dia reader0 a) as -> by (destruct Hab as [->| ->]; done).
    destruct (process_line dia reader0 a) as [r1|] eqn:E; [|done]. rewrite !decide_True by (by apply Hst).
    rewrite clean_start; [|eapply process_all_clean; [apply reader0_clean|exact E]|by apply Hst].
    destruct (IH (pos + n) (pos' + m)) as [E1 E2].
    cbn [fst snd]. rewrite !fmap_cons. cbn [fst]. by rewrite E1, E2. }
  intros k. destruct (Hgen 0 0 _ _ (list.Forall2_drop _ _ _ k H)) as [E1 E2].
  unfold records. cbv zeta. by rewrite E1, E2.
Qed.

(** ** The lines of a file of 16-bit units *)
Lemma first_line16_gen big bytes : ∀ k cur m, (List.length bytes <= k)%nat →
  (cur = [] ∧ read_lines16 big cur m bytes = []) ∨
  ∃ line n, (n <= List.length bytes)%nat ∧ (cur = [] → 0 < n)%nat ∧
    read_lines16 big cur m bytes = (line, m + Z.of_nat n) :: read_lines16 big [] 0 (drop n bytes).
Proof.
  intros k. revert bytes. induction k as [|k IH]; intros bytes cur m Hk.
  - destruct bytes; [|cbn [List.length] in Hk; lia]. destruct cur; [by left|right]. eexists _, 0%nat.
    split; [lia|]. split; [done|]. cbn. by rewrite Z.add_0_r.
  - destruct bytes as [|a [|b bytes]].
    + destruct cur; [by left|right]. eexists _, 0%nat. split; [lia|]. split; [done|]. cbn. by rewrite Z.add_0_r.
    + destruct cur; [by left|right]. eexists _, 0%nat. split; [lia|]. split; [done|]. cbn. by rewrite Z.add_0_r.
    + right. cbn [read_lines16]. set (ch := if big then a * 256 + b else b * 256 + a). destruct (ch =? 10).
      * eexists _, 2%nat. split; [cbn [List.length]; lia|]. split; [lia|]. done.
      * destruct (IH bytes (cur ++ [ch]) (m + 2)) as [[E _]|(line & n & Hn & _ & E)]; [cbn [List.length] in Hk; lia| |].
        { by destruct cur. }
        exists line, (S (S n)). split; [cbn [List.length]; lia|]. split; [lia|]. rewrite E. cbn [drop]. f_equal. f_equal. lia.
Qed.
Lemma first_line16 big bytes : read_lines16 big [] 0 bytes = [] ∨
  ∃ line n, 0 < n <= Z.of_nat (List.length bytes) ∧
    read_lines16 big [] 0 bytes = (line, n) :: read_lines16 big [] 0 (drop (Z.to_nat n) bytes).
Proof.
  destruct (first_line16_gen big bytes _ [] 0 (le_n _)) as [[_ E]|(line & n & Hn & H0 & E)]; [by left|right].
  exists line, (Z.of_nat n). rewrite Nat2Z.id. split; [specialize (H0 eq_refl); lia|]. exact E.
Qed.
Lemma lines_pos16 big j bytes : let ls := take j (read_lines16 big [] 0 bytes) in
  0 <= consumed ls ∧ read_lines16 big [] 0 (drop (Z.to_nat (consumed ls)) bytes) = drop j (read_lines16 big [] 0 bytes).
Proof.
  cbv zeta. revert bytes. induction j as [|j IH]; intros bytes.
  { rewrite take_0, consumed_nil. change (Z.to_nat 0) with 0%nat. rewrite !drop_0. split; [lia|done]. }
  destruct (first_line16 big bytes) as [E|(line & n & Hn & E)]; rewrite E.
  { rewrite take_nil, consumed_nil, drop_nil. change (Z.to_nat 0) with 0%nat. rewrite drop_0. done. }
  cbn [take drop]. rewrite consumed_cons. cbn [snd]. destruct (IH (drop (Z.to_nat n) bytes)) as [Hb Hr].
  split; [lia|]. rewrite <- Hr, drop_drop. f_equal. f_equal. lia.
Qed.

Lemma file_seekable k bytes pos : 0 <= pos → seekable pos (file_lines k bytes pos) (file_lines k bytes).
Proof.
  intros Hpos j. unfold file_lines. destruct k as [|big|f].
  - destruct (lines_pos j (drop (Z.to_nat pos) bytes)) as [Hb <-]. rewrite drop_drop. do 2 f_equal. lia.
  - destruct (lines_pos16 big j (drop (Z.to_nat pos) bytes)) as [Hb <-]. rewrite drop_drop. do 2 f_equal. lia.
  - assert (∀ ls, consumed (map (λ l : list chr * Z, (f l.1, l.2)) ls) = consumed ls) as Hc.
    { induction ls as [|l ls IH]; [done|]. cbn [map]. rewrite !consumed_cons. by rewrite IH. }
    assert (∀ n ls, take n (map (λ l : list chr * Z, (f l.1, l.2)) ls) = map (λ l, (f l.1, l.2)) (take n ls)) as Ht.
    { intros n ls. symmetry. apply (fmap_take (λ l : list chr * Z, (f l.1, l.2))). }
    rewrite Ht, Hc. destruct (lines_pos j (drop (Z.to_nat pos) bytes)) as [Hb Hr].
    transitivity (map (λ l : list chr * Z, (f l.1, l.2)) (drop j (read_lines (drop (Z.to_nat pos) bytes)))).
    + f_equal. rewrite <- Hr, drop_drop. do 2 f_equal. lia.
    + apply (fmap_drop (λ l : list chr * Z, (f l.1, l.2))).
Qed.

(** ** The lines of encoded texts *)
Definition strip_cr (line : list chr) : list chr := match rev line with 13 :: before => rev before | _ => line end.
Lemma strip_cr_cases line : strip_cr line = line ∨ line = strip_cr line ++ [13].
Proof.
  unfold strip_cr. destruct (rev line) as [|c before] eqn:E; [by left|].
  destruct (Z.eq_dec c 13) as [->|Hc].
  - right. rewrite <- (rev_involutive line), E. done.
  - left. destruct c as [|p|p]; try done.
    do 4 (destruct p as [p|p|]; try done).
Qed.
Lemma strip_cr_none line : 13 ∉ line → strip_cr line = line.
Proof.
  intros H. destruct (strip_cr_cases line) as [E|E]; [done|]. exfalso. apply H. rewrite E. set_solver.
Qed.
Lemma read_line_nl pre rest : 10 ∉ pre →
  read_lines (pre ++ 10 :: rest) = (strip_cr pre, Z.of_nat (List.length pre) + 1) :: read_lines rest.
Proof.
  intros H. unfold read_lines. rewrite read_lines_from_app by done. cbn [app]. done.
Qed.
Lemma read_line_last text : 10 ∉ text → text ≠ [] → read_lines text = [(text, Z.of_nat (List.length text))].
Proof.
  intros H Hne. unfold read_lines. rewrite <- (app_nil_r text) at 1. rewrite read_lines_from_app by done.
  cbn [app read_lines_from]. by destruct text.
Qed.

Lemma utf8_char_low c b : 0 <= c → b ∈ utf8_char c → 0 <= b < 128 → b = c.
Proof.
  intros Hc. unfold utf8_char. repeat case_match; rewrite ?Z.ltb_lt, ?Z.ltb_ge in *; rewrite !elem_of_cons, elem_of_nil.
  all: intros Hb Hlt.
  all: repeat match goal with |- context [?a mod ?b] => pose proof (Z.mod_pos_bound a b ltac:(lia)); generalize dependent (a mod b) end.
  - naive_solver.
  - assert (0 <= c / 64) by (apply Z.div_pos; lia).
    pose proof (Z.mod_pos_bound c 64 ltac:(lia)). lia.
  - assert (0 <= c / 4096) by (apply Z.div_pos; lia).
    pose proof (Z.mod_pos_bound c 64 ltac:(lia)). pose proof (Z.mod_pos_bound (c / 64) 64 ltac:(lia)). lia.
  - assert (0 <= c / 262144) by (apply Z.div_pos; lia).
    pose proof (Z.mod_pos_bound c 64 ltac:(lia)). pose proof (Z.mod_pos_bound (c / 64) 64 ltac:(lia)).
    pose proof (Z.mod_pos_bound (c / 4096) 64 ltac:(lia)). lia.
Qed.
Lemma utf8_low text b : Forall scalar text → b ∈ utf8 text → 0 <= b < 128 → b ∈ text.
Proof.
  intros Hs Hb Hlt. unfold utf8 in Hb. rewrite concat_map_bind in Hb.
  apply elem_of_list_bind in Hb as (c & Hin & Hc).
  assert (0 <= c) by (pose proof (proj1 (list.Forall_forall _ _) Hs c Hc) as X; unfold scalar in X; lia).
  by rewrite (utf8_char_low c b).
Qed.
Lemma utf8_low_in text b : b ∈ text → 0 <= b < 128 → b ∈ utf8 text.
Proof.
  intros Hb Hlt. unfold utf8. rewrite concat_map_bind. apply elem_of_list_bind. exists b. split; [|done].
  unfold utf8_char. rewrite (proj2 (Z.ltb_lt b 0x80)) by lia. set_solver.
Qed.
Lemma utf8_nonempty text : text ≠ [] → utf8 text ≠ [].
Proof.
  intros H E. apply H. pose proof (utf8_length text) as L. rewrite E in L. destruct text; [done|cbn [List.length] in L; lia].
Qed.
Lemma utf8_nl pre rest : utf8 (pre ++ 10 :: rest) = utf8 pre ++ 10 :: utf8 rest.
Proof. by rewrite utf8_app, utf8_cons. Qed.

(** 16-bit units *)
Definition units (text : list Z) : list Z := text ≫= utf16_units.
Lemma wide_text text : Forall scalar text → 0 ∉ text → wide_to_utf8 (units text) = utf8 text.
Proof.
  induction 1 as [|c text Hc _ IH]; intros H0; [done|]. apply not_elem_of_cons in H0 as [Hc0 H0].
  rewrite utf8_cons. unfold units. cbn [mbind list_bind]. fold (units text). unfold scalar in Hc. unfold utf16_units.
  destruct (Z.ltb_spec c 0x10000).
  - cbn [app wide_to_utf8]. rewrite (proj2 (Z.eqb_neq c 0)) by lia.
    assert ((0xD800 <=? c) && (c <=? 0xDBFF) = false) as -> by (destruct (Z.leb_spec 0xD800 c), (Z.leb_spec c 0xDBFF); lia).
    assert ((0xDC00 <=? c) && (c <=? 0xDFFF) = false) as -> by (destruct (Z.leb_spec 0xDC00 c), (Z.leb_spec c 0xDFFF); lia).
    by rewrite IH.
  - set (d := c - 0x10000).
    assert (0 <= d / 1024 < 1024) as Hd by (split; [apply Z.div_pos; lia|apply Z.div_lt_upper_bound; lia]).
    pose proof (Z.mod_pos_bound d 1024 ltac:(lia)) as Hm.
    cbn [app wide_to_utf8]. rewrite (proj2 (Z.eqb_neq (0xD800 + d / 1024) 0)) by lia.
    assert ((0xD800 <=? 0xD800 + d / 1024) && (0xD800 + d / 1024 <=? 0xDBFF) = true) as ->
      by (apply andb_true_iff; rewrite !Z.leb_le; lia).
    assert ((0xDC00 <=? 0xDC00 + d mod 1024) && (0xDC00 + d mod 1024 <=? 0xDFFF) = true) as ->
      by (apply andb_true_iff; rewrite !Z.leb_le; lia).
    rewrite IH by done. f_equal. f_equal.
    replace (0xD800 + d / 1024) with (d / 1024 + 54 * 1024) by lia. rewrite Z.mod_add by lia.
    replace (0xDC00 + d mod 1024) with (d mod 1024 + 55 * 1024) by lia. rewrite Z.mod_add by lia.
    rewrite (Z.mod_small (d / 1024) 1024), (Z.mod_small (d mod 1024) 1024) by lia.
    pose proof (Z.div_mod d 1024 ltac:(lia)). unfold d in *. lia.
Qed.

Lemma read16_unit big cur n u rest : 0 <= u → u ≠ 10 →
  read_lines16 big cur n (unit_bytes big u ++ rest) = read_lines16 big (cur ++ [u]) (n + 2) rest.
Proof.
  intros H0 H10. unfold unit_bytes.
  assert (u / 256 * 256 + u mod 256 = u) as E by (pose proof (Z.div_mod u 256 ltac:(lia)); lia).
  destruct big; cbn [app read_lines16]; rewrite E, (proj2 (Z.eqb_neq u 10)) by done; done.
Qed.
Lemma utf16_units_ok c u : scalar c → u ∈ utf16_units c → 0 <= u ∧ (c ≠ 10 → u ≠ 10).
Proof.
  unfold scalar, utf16_units. intros Hc. destruct (Z.ltb_spec c 0x10000); rewrite !elem_of_cons, elem_of_nil.
  - intros [->|[]]. lia.
  - assert (0 <= (c - 0x10000) / 1024) by (apply Z.div_pos; lia).
    pose proof (Z.mod_pos_bound (c - 0x10000) 1024 ltac:(lia)). lia.
Qed.
Lemma read16_units big us cur n rest : Forall (λ u, 0 <= u ∧ u ≠ 10) us →
  read_lines16 big cur n ((us ≫= unit_bytes big) ++ rest) =
  read_lines16 big (cur ++ us) (n + 2 * Z.of_nat (List.length us)) rest.
Proof.
  intros H. revert cur n. induction H as [|u us [Hu0 Hu] _ IH]; intros cur n; cbn [mbind list_bind app].
  - rewrite app_nil_r. f_equal. cbn [List.length]. lia.
  - rewrite <- app_assoc, read16_unit by done. rewrite IH, <- app_assoc. cbn [app]. f_equal. cbn [List.length]. lia.
Qed.
Lemma utf16_eq big text : utf16 big text = units text ≫= unit_bytes big.
Proof. unfold utf16, units. induction text as [|c text IH]; [done|]. cbn [mbind list_bind]. rewrite IH. by rewrite bind_app. Qed.
Lemma units_ok text : Forall scalar text → 10 ∉ text → Forall (λ u, 0 <= u ∧ u ≠ 10) (units text).
Proof.
  intros Hs Hn. apply list.Forall_forall. intros u Hu. unfold units in Hu. apply elem_of_list_bind in Hu as (c & Hu & Hc).
  pose proof (proj1 (list.Forall_forall _ _) Hs c Hc) as X. destruct (utf16_units_ok c u X Hu) as [H1 H2].
  split; [done|]. apply H2. intros ->. done.
Qed.
Lemma read16_nl big pre rest : Forall scalar pre → 10 ∉ pre → 0 ∉ pre → ∃ n,
  read_lines16 big [] 0 (utf16 big (pre ++ 10 :: rest)) = (utf8 pre, n) :: read_lines16 big [] 0 (utf16 big rest).
Proof.
  intros Hs Hn H0. eexists. rewrite !utf16_eq. unfold units. rewrite bind_app, bind_app. fold (units pre).
  rewrite read16_units by (by apply units_ok). cbn [app].
  assert (((10 :: rest) ≫= utf16_units) = 10 :: (rest ≫= utf16_units)) as -> by reflexivity.
  cbn [mbind list_bind].
  assert (unit_bytes big 10 = if big then [0; 10] else [10; 0]) as -> by (by destruct big).
  destruct big; cbn [app read_lines16]; cbn [Z.mul Z.add Z.eqb Pos.eqb];
    rewrite wide_text by done; reflexivity.
Qed.
Lemma read16_last big text : Forall scalar text → 10 ∉ text → 0 ∉ text → text ≠ [] → ∃ n,
  read_lines16 big [] 0 (utf16 big text) = [(utf8 text, n)].
Proof.
  intros Hs Hn H0 Hne. eexists. rewrite utf16_eq. rewrite <- (app_nil_r (units text ≫= unit_bytes big)).
  rewrite read16_units by (by apply units_ok). cbn [app read_lines16].
  destruct (units text) eqn:E; [|rewrite <- E, wide_text by done; reflexivity].
  exfalso. destruct text as [|c text]; [done|]. unfold units in E. cbn [mbind list_bind] in E.
  unfold utf16_units in E. destruct (c <? 0x10000); discriminate E.
Qed.

Lemma text_split (text : list Z) (P : list Z → Prop) :
  P [] → (∀ t, t ≠ [] → 10 ∉ t → P t) → (∀ pre rest, 10 ∉ pre → P rest → P (pre ++ 10 :: rest)) → P text.
Proof.
  intros P0 P1 P2. remember (List.length text) as n eqn:Hn. revert text Hn.
  induction (lt_wf n) as [n _ IH]. intros text ->.
  destruct (split_nl text) as [Hnl|(pre & rest & -> & Hp)].
  - destruct text; [done|]. by apply P1.
  - apply P2; [done|]. eapply IH; [|reflexivity]. rewrite app_length. cbn [List.length]. unfold chr. lia.
Qed.

Lemma lines16_text big text (Q : Z → Prop) : Forall scalar text → 0 ∉ text → Forall Q (utf8 text) →
  Forall2 (λ l l', Forall Q l.1 ∧ (l'.1 = l.1 ∨ 13 ∈ text ∧ l'.1 = l.1 ++ [13]))
    (read_lines (utf8 text)) (read_lines16 big [] 0 (utf16 big text)).
Proof.
  apply (text_split text); clear text.
  - intros _ _ _. constructor.
  - intros t Hne Hn Hs H0 HQ. destruct (read16_last big t Hs Hn H0 Hne) as [n ->].
    rewrite read_line_last; [|intros H; by apply utf8_low in H; [|done|lia]|by apply utf8_nonempty].
    constructor; [|constructor]. cbn [fst]. split; [done|by left].
  - intros pre rest Hn IH Hs H0 HQ. apply list.Forall_app in Hs as [Hs1 Hs2]. apply list.Forall_cons in Hs2 as [_ Hs2].
    destruct (read16_nl big pre rest Hs1 Hn) as [n ->]; [set_solver|].
    rewrite utf8_nl in *. rewrite read_line_nl by (intros H; by apply utf8_low in H; [|done|lia]).
    apply list.Forall_app in HQ as [HQ1 HQ2]. apply list.Forall_cons in HQ2 as [_ HQ2].
    constructor.
    + cbn [fst]. destruct (strip_cr_cases (utf8 pre)) as [E|E].
      * rewrite E. split; [done|by left].
      * split.
        { rewrite E in HQ1. by apply list.Forall_app in HQ1 as [HQ1 _]. }
        right. split; [|done]. assert (13 ∈ utf8 pre) as H by (rewrite E; set_solver).
        apply utf8_low in H; [|done|lia]. set_solver.
    + eapply Forall2_impl; [apply IH; [done|set_solver|done]|]. cbn beta. intros l l' [H1 H2]. split; [done|].
      destruct H2 as [H2|[H2 H3]]; [by left|right]. split; [set_solver|done].
Qed.

(** ** One byte per character *)
Lemma single_lines (byte_of : Z → option Z) (f : list Z → list Z) :
  (∀ c, byte_of c = Some 10 ↔ c = 10) → (∀ c, byte_of c = Some 13 ↔ c = 13) →
  (∀ text bytes, mapM byte_of text = Some bytes → f bytes = utf8 text) →
  ∀ text bytes, Forall scalar text → mapM byte_of text = Some bytes →
  Forall2 (λ l l', l.1 = l'.1) (read_lines (utf8 text)) (map (λ l, (f l.1, l.2)) (read_lines bytes)).
Proof.
  intros H10 H13 Hf text. apply (text_split text); clear text.
  - intros bytes _ [= <-]. constructor.
  - intros t Hne Hn bytes Hs Hb.
    rewrite read_line_last; [|intros H; by apply utf8_low in H; [|done|lia]|by apply utf8_nonempty].
    assert (bytes ≠ []) as Hbne.
    { intros ->. apply mapM_Some_1, Forall2_length in Hb. by destruct t. }
    rewrite read_line_last; [|intros H|done].
    + constructor; [|constructor]. cbn [fst]. by rewrite (Hf _ _ Hb).
    + apply mapM_Some_1 in Hb. apply elem_of_list_lookup in H as [i Hi].
      destruct (Forall2_lookup_r _ _ _ _ _ Hb Hi) as (c & Hc & Hbc). apply H10 in Hbc. subst c.
      apply Hn. by eapply elem_of_list_lookup_2.
  - intros pre rest Hn IH bytes Hs Hb. apply list.Forall_app in Hs as [Hs1 Hs2]. apply list.Forall_cons in Hs2 as [_ Hs2].
    apply mapM_Some_1, Forall2_app_inv_l in Hb as (bpre & bs & Hb1 & Hb2 & ->).
    apply Forall2_cons_inv_l in Hb2 as (b10 & brest & Eb & Hb2 & ->).
    assert (b10 = 10) as -> by (pose proof (proj2 (H10 10) eq_refl); congruence).
    rewrite utf8_nl. rewrite read_line_nl by (intros H; by apply utf8_low in H; [|done|lia]).
    rewrite read_line_nl.
    2:{ intros H. apply elem_of_list_lookup in H as [i Hi].
        destruct (Forall2_lookup_r _ _ _ _ _ Hb1 Hi) as (c & Hc & Hbc). apply H10 in Hbc. subst c.
        apply Hn. by eapply elem_of_list_lookup_2. }
    cbn [map]. constructor; [|apply IH; [done|by apply mapM_Some_2]]. cbn [fst].
    destruct (strip_cr_cases bpre) as [E|E].
    + rewrite E, (Hf pre) by (by apply mapM_Some_2).
      destruct (strip_cr_cases (utf8 pre)) as [E'|E']; [done|exfalso].
      (* pre ends with 13, so does bpre *)
      assert (∃ p, pre = p ++ [13]) as [p ->].
      { destruct (list.last pre) as [c|] eqn:El.
        - apply last_Some in El as [p ->]. exists p. f_equal. f_equal. rewrite utf8_app in E'.
          assert (0 <= c) by (apply list.Forall_app in Hs1 as [_ Hs1]; apply list.Forall_cons in Hs1 as [Hc _]; unfold scalar in Hc; lia).
          assert (list.last (utf8 p ++ utf8 [c]) = Some 13) as L by (rewrite E'; by rewrite last_snoc).
          assert (13 ∈ utf8_char c); [|symmetry; apply utf8_char_low; [done..|lia]].
          unfold utf8 in L at 2. cbn [map concat] in L. rewrite app_nil_r in L.
          destruct (list.last (utf8_char c)) as [x|] eqn:Ex.
          + rewrite last_app, Ex in L. injection L as ->. by apply last_Some_elem_of.
          + apply last_None in Ex. unfold utf8_char in Ex. repeat case_match; discriminate.
        - apply last_None in El. subst pre. destruct (strip_cr (utf8 [])); discriminate. }
      apply Forall2_app_inv_l in Hb1 as (b1 & b2 & _ & Hb13 & ->).
      apply Forall2_cons_inv_l in Hb13 as (b & nil & Eb13 & Hnil & ->). apply Forall2_nil_inv_l in Hnil. subst nil.
      assert (b = 13) as -> by (pose proof (proj2 (H13 13) eq_refl); congruence).
      unfold strip_cr in E. rewrite rev_app_distr in E. cbn [rev app] in E. rewrite rev_involutive in E.
      apply (f_equal List.length) in E. rewrite app_length in E. cbn [List.length] in E. unfold chr in *. lia.
    + rewrite E in Hb1. apply Forall2_app_inv_r in Hb1 as (p1 & p2 & Hp1 & Hp2 & ->).
      apply Forall2_cons_inv_r in Hp2 as (c & nil & Ec & Hnil & ->). apply Forall2_nil_inv_r in Hnil. subst nil.
      apply H13 in Ec. subst c. rewrite (Hf p1) by (by apply mapM_Some_2).
      rewrite utf8_app. change (utf8 [13]) with [13]. unfold strip_cr at 1. rewrite rev_app_distr. cbn [rev app].
      by rewrite rev_involutive.
Qed.

(** ** Imports of encoded texts *)
Lemma latin1_low c b : latin1_byte c = Some b → b = c.
Proof. unfold latin1_byte. case_bool_decide; [|done]. by intros [= <-]. Qed.
Lemma windows1252_low c b : windows1252_byte c = Some b → b < 128 → b = c.
Proof.
  unfold windows1252_byte. case_bool_decide; [by intros [= <-]|].
  destruct (list_find _ windows1252) as [[i p]|] eqn:E; [|done]. intros [= <-] Hlt. exfalso.
  apply list_find_Some in E as (Hi & _ & _). cbn [snd] in Hlt.
  assert (Forall (λ p : Z * Z, 128 <= p.1) windows1252) as HF by (repeat constructor; cbn; lia).
  apply elem_of_list_lookup_2 in Hi. pose proof (proj1 (list.Forall_forall _ _) HF p Hi) as X. cbn beta in X. lia.
Qed.
Lemma single_low (byte_of : Z → option Z) b :
  byte_of b = Some b → (∀ c, byte_of c = Some b → b = c) → ∀ c, byte_of c = Some b ↔ c = b.
Proof. intros H1 H2 c. split; [|by intros ->]. intros H. symmetry. by apply H2. Qed.

Lemma text_import_file {X} (task : _ → _ → _ → option (list (list X))) hn digits dia text columns (hdr : bool) header_row ps start limit :
  text_import_with task hn digits dia text columns hdr header_row ps start limit =
  import_with hn digits (file_newlines dia 0 (file_lines FileUTF8 text 0)) (λ o, records dia (file_lines FileUTF8 text o))
    task columns hdr header_row ps start limit.
Proof. reflexivity. Qed.

Lemma import_lines {X} (task : _ → _ → _ → option (list (list X))) hn digits dia text k bytes pos columns (hdr : bool) header_row ps start limit :
  0 <= pos → List.length (file_lines FileUTF8 text 0) = List.length (file_lines k bytes pos) →
  (∀ j, records dia (drop j (file_lines FileUTF8 text 0)) = records dia (drop j (file_lines k bytes pos))) →
  import_with hn digits (file_newlines dia pos (file_lines k bytes pos)) (file_parse dia k bytes)
    task columns hdr header_row ps start limit =
  text_import_with task hn digits dia text columns hdr header_row ps start limit.
Proof.
  intros Hpos Hl Hr. rewrite text_import_file.
  rewrite (same_import task hn digits dia 0 _ _ pos _ (file_lines k bytes) columns hdr header_row ps start limit
    (file_seekable FileUTF8 text 0 ltac:(lia)) (file_seekable k bytes pos Hpos) Hl Hr).
  apply import_with_ext. destruct (file_newlines dia pos (file_lines k bytes pos)) as [[offs n]|]; [right|by left].
  exists offs, offs, n. split; [done|]. split; [done|]. split; [done|].
  intros j off off' H H'. rewrite H in H'. injection H' as <-. apply records_pos.
Qed.

Lemma utf8_no_bom text : Forall scalar text → take 3 (utf8 text) = [0xEF; 0xBB; 0xBF] → head text = Some BOM.
Proof.
  intros Hs H. assert (utf8 text = utf8_char BOM ++ drop 3 (utf8 text)) as E.
  { change (utf8_char BOM) with [0xEF; 0xBB; 0xBF]. rewrite <- H. by rewrite take_drop. }
  assert (Forall code_point text) as Hc.
  { eapply list.Forall_impl; [exact Hs|]. unfold scalar, code_point. intros; lia. }
  rewrite <- (toRunes_utf8 text Hc), E, toRunes_char; [done|]. unfold code_point, BOM. lia.
Qed.
Lemma utf16_even big text : Z.odd (Z.of_nat (List.length (utf16 big text))) = false.
Proof.
  rewrite utf16_eq. induction (units text) as [|u us IH]; [done|]. cbn [mbind list_bind]. rewrite app_length.
  assert (List.length (unit_bytes big u) = 2%nat) as -> by (unfold unit_bytes; by destruct big).
  rewrite Nat2Z.inj_add, Z.odd_add. change (list_bind Z Z (unit_bytes big) us) with (us ≫= unit_bytes big). rewrite IH. done.
Qed.

Lemma file_import_text {X} (task : _ → _ → _ → option (list (list X))) iconv cs text bytes hn digits dia columns (hdr : bool) header_row ps start limit :
  converts_to_utf8 iconv → Forall scalar text → encode cs text = Some bytes →
  (cs = UTF8 → head text ≠ Some BOM) →
  (cs = UTF16_LE ∨ cs = UTF16_BE → 0 ∉ text ∧
    (CR ∉ text ∨ (d_quoting dia = QUOTE_NONE ∨ quotechar dia ∉ utf8 text) ∧ escapechar dia ∉ utf8 text)) →
  file_import iconv (Some (charset_name cs)) bytes task hn digits dia columns hdr header_row ps start limit =
  text_import_with task hn digits dia (utf8 text) columns hdr header_row ps start limit.
Proof.
  intros Hconv Hs He Hbom H16.
  assert (∀ big, 0 ∉ text → (CR ∉ text ∨ (d_quoting dia = QUOTE_NONE ∨ quotechar dia ∉ utf8 text) ∧ escapechar dia ∉ utf8 text) →
    List.length (read_lines (utf8 text)) = List.length (read_lines16 big [] 0 (utf16 big text)) ∧
    ∀ j, records dia (drop j (read_lines (utf8 text))) = records dia (drop j (read_lines16 big [] 0 (utf16 big text)))) as Hlines.
  { intros big H0 Hq.
    pose proof (lines16_text big text (λ c, c ∈ utf8 text) Hs H0) as HF.
    specialize (HF ltac:(apply list.Forall_forall; done)). split; [by eapply Forall2_length|].
    destruct Hq as [Hcr|[Hq Hesc]].
    - apply records_same_lines. eapply Forall2_impl; [exact HF|]. cbn beta. intros l l' [_ [E|[E _]]]; [done|]. by destruct (Hcr E).
    - apply records_quiet_lines. eapply Forall2_impl; [exact HF|]. cbn beta. intros l l' [Hin Hl].
      rewrite list.Forall_forall in Hin. split; [|destruct Hl as [|[_ ?]]; tauto]. split.
      + destruct Hq as [Hq|Hq]; [by left|right]. intros HX. by apply Hq, Hin.
      + intros HX. by apply Hesc, Hin. }
  assert (∀ f, encode cs text = Some bytes → (cs = LATIN1 ∨ cs = WINDOWS1252) →
    (∀ text bytes, encode cs text = Some bytes → f bytes = utf8 text) →
    Forall2 (λ l l', l.1 = l'.1) (read_lines (utf8 text)) (map (λ l, (f l.1, l.2)) (read_lines bytes))) as Hsingle.
  { intros f Hb [->| ->] Hf; cbn [encode] in Hb.
    - eapply (single_lines latin1_byte); [| |exact Hf|done|exact Hb]; apply single_low; try reflexivity;
        intros c Hc; by apply latin1_low.
    - eapply (single_lines windows1252_byte); [| |exact Hf|done|exact Hb]; apply single_low; try reflexivity;
        intros c Hc; apply windows1252_low; (done || lia). }
  destruct cs; cbn [encode] in He; try (apply (inj Some) in He; subst bytes).
  - change (file_import iconv (Some (charset_name UTF8)) (utf8 text) task) with
      (λ hn digits dia columns (hdr : bool) header_row ps start limit, 
        import_with hn digits (file_newlines dia (if decide (take 3 (utf8 text) = [0xEF; 0xBB; 0xBF]) then 3 else 0)
           (file_lines FileUTF8 (utf8 text) (if decide (take 3 (utf8 text) = [0xEF; 0xBB; 0xBF]) then 3 else 0)))
         (file_parse dia FileUTF8 (utf8 text)) task columns hdr header_row ps start limit).
    cbv beta. rewrite decide_False by (intros HX; apply (Hbom eq_refl); by apply utf8_no_bom).
    by apply import_lines.
  - change (file_import iconv (Some (charset_name UTF8_SIG)) (utf8 (BOM :: text)) task) with
      (λ hn digits dia columns (hdr : bool) header_row ps start limit, 
        import_with hn digits (file_newlines dia 3 (file_lines FileUTF8 (utf8 (BOM :: text)) 3))
         (file_parse dia FileUTF8 (utf8 (BOM :: text))) task columns hdr header_row ps start limit).
    cbv beta. by apply import_lines.
  - destruct (H16 (or_introl eq_refl)) as [H0 Hq]. destruct (Hlines false H0 Hq) as [Hl Hr].
    unfold file_import. change (py_to_nim_encoding (Some (charset_name UTF16_LE))) with (Some "ENC_UTF16"%string).
    cbn [mbind option_bind]. change (str2Enc "ENC_UTF16") with (Some ENC_UTF16). cbn [mbind option_bind].
    change (str2Enc (encoding_text ENC_UTF16)) with (Some ENC_UTF16). cbn [mbind option_bind].
    unfold open_file. rewrite utf16_even.
    assert (utf16 false (BOM :: text) = 0xFF :: 0xFE :: utf16 false text) as E by reflexivity.
    rewrite E. cbn [mbind option_bind fst snd]. change (0xFE * 256 + 0xFF =? 0xFEFF) with true. cbv iota. cbn [mbind option_bind fst snd].
    by apply import_lines.
  - destruct (H16 (or_intror eq_refl)) as [H0 Hq]. destruct (Hlines true H0 Hq) as [Hl Hr].
    unfold file_import. change (py_to_nim_encoding (Some (charset_name UTF16_BE))) with (Some "ENC_UTF16"%string).
    cbn [mbind option_bind]. change (str2Enc "ENC_UTF16") with (Some ENC_UTF16). cbn [mbind option_bind].
    change (str2Enc (encoding_text ENC_UTF16)) with (Some ENC_UTF16). cbn [mbind option_bind].
    unfold open_file. rewrite utf16_even.
    assert (utf16 true (BOM :: text) = 0xFE :: 0xFF :: utf16 true text) as E by reflexivity.
    rewrite E. cbn [mbind option_bind fst snd]. change (0xFF * 256 + 0xFE =? 0xFEFF) with false.
    change (0xFF * 256 + 0xFE =? 0xFFFE) with true. cbv iota. cbn [mbind option_bind fst snd].
    by apply import_lines.
  - destruct (Hconv LATIN1 (or_introl eq_refl)) as (f & Hf & Hfc).
    unfold file_import. change (py_to_nim_encoding (Some (charset_name LATIN1))) with (Some "ENC_CONV|ISO-8859-1"%string).
    cbn [mbind option_bind]. change (str2Enc "ENC_CONV|ISO-8859-1") with (Some (ENC_CONV "ISO-8859-1")). cbn [mbind option_bind].
    change (str2Enc (encoding_text (ENC_CONV "ISO-8859-1"))) with (Some (ENC_CONV "ISO-8859-1")). cbn [mbind option_bind open_file].
    change (charset_name LATIN1) with "ISO-8859-1"%string in Hf. rewrite Hf. cbn [mbind option_bind fst snd].
    pose proof (Hsingle f He (or_introl eq_refl) Hfc) as HF.
    apply import_lines; [lia|by eapply Forall2_length|]. by apply records_same_lines.
  - destruct (Hconv WINDOWS1252 (or_intror eq_refl)) as (f & Hf & Hfc).
    unfold file_import. change (py_to_nim_encoding (Some (charset_name WINDOWS1252))) with (Some "ENC_CONV|Windows-1252"%string).
    cbn [mbind option_bind]. change (str2Enc "ENC_CONV|Windows-1252") with (Some (ENC_CONV "Windows-1252")). cbn [mbind option_bind].
    change (str2Enc (encoding_text (ENC_CONV "Windows-1252"))) with (Some (ENC_CONV "Windows-1252")). cbn [mbind option_bind open_file].
    change (charset_name WINDOWS1252) with "Windows-1252"%string in Hf. rewrite Hf. cbn [mbind option_bind fst snd].
    pose proof (Hsingle f He (or_intror eq_refl) Hfc) as HF.
    apply import_lines; [lia|by eapply Forall2_length|]. by apply records_same_lines.
Qed.

Definition cr_text : list Z := [104; 10; 34; 97; 13; 10; 98; 34; 10].
Definition nul_text : list Z := [104; 10; 97; 0; 98; 10].
Lemma encodings_differ : ∃ text bytes, Forall scalar text ∧ encode UTF16_LE text = Some bytes ∧
  file_import (λ _, None) (Some "utf-16"%string) bytes (reader_task SKIP_NONE) (λ _, "h"%string) (λ _, ""%string)
    (tablite_dialect 44 (Some 34) false) None true 0 10 None None ≠
  file_import (λ _, None) (Some "utf-8"%string) (utf8 text) (reader_task SKIP_NONE) (λ _, "h"%string) (λ _, ""%string)
    (tablite_dialect 44 (Some 34) false) None true 0 10 None None.
Proof.
  exists cr_text. eexists. split; [|split; [vm_compute; reflexivity|vm_compute; discriminate]].
  unfold cr_text. repeat constructor; unfold scalar; lia.
Qed.

(** Converters as the theorem asks for exist. *)
Definition windows1252_char (b : Z) : Z :=
  match list_find (λ p : Z * Z, p.1 = b) windows1252 with Some found => found.2.2 | None => b end.
Definition some_iconv (name : string) : option (list Z → list Z) :=
  if decide (name = "ISO-8859-1"%string) then Some utf8
  else if decide (name = "Windows-1252"%string) then Some (λ bytes, utf8 (map windows1252_char bytes))
  else None.
Lemma some_iconv_converts : converts_to_utf8 some_iconv.
Proof.
  intros cs [->| ->]; eexists; (split; [reflexivity|]); intros text bytes H; cbn [encode] in H; apply mapM_Some_1 in H.
  - f_equal. induction H as [|c b text bytes Hc _ IH]; [done|]. apply latin1_low in Hc. by rewrite IH, Hc.
  - cbv beta. assert (map windows1252_char bytes = text) as ->; [|done].
    induction H as [|c b text bytes Hc _ IH]; [done|]. cbn [map]. rewrite IH. f_equal.
    unfold windows1252_byte in Hc. case_bool_decide as Hr.
    + injection Hc as <-. unfold windows1252_char. destruct (list_find _ windows1252) as [[i p]|] eqn:E; [|done].
      apply list_find_Some in E as (Hi & Hp & _). apply elem_of_list_lookup_2 in Hi.
      assert (Forall (λ p : Z * Z, 0x80 <= p.1 < 0xA0) windows1252) as HF by (repeat constructor; cbn; lia).
      pose proof (proj1 (list.Forall_forall _ _) HF p Hi) as X. cbn beta in X. lia.
    + destruct (list_find _ windows1252) as [[i p]|] eqn:E; [|done]. cbn in Hc. injection Hc as <-.
      apply list_find_Some in E as (Hi & <- & _). apply elem_of_list_lookup_2 in Hi.
      assert (Forall (λ p : Z * Z, windows1252_char p.1 = p.2) windows1252) as HF
        by (repeat (apply list.Forall_cons_2; [vm_compute; reflexivity|]); apply list.Forall_nil_2).
      exact (proj1 (list.Forall_forall _ _) HF p Hi).
Qed.
