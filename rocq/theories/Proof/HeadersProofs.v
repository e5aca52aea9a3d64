(** Headers of text files (C91). *)
From Coq Require Import String.
From Verif.Spec Require Import Export.
From Verif.Model Require Import Headers.
From Verif.Proof Require Import CsvScan NamesProofs ExportProofs TableBase StatsProofs.
From Coq Require Import Sorted.
Local Open Scope list_scope.
Local Open Scope Z_scope.

(** ** Separators *)
Lemma occurrences_pos c s : c ∈ s ↔ 0 < occurrences c s.
Proof.
  unfold occurrences. induction s as [|x s IH]; [split; [by intros ?%elem_of_nil|done]|].
  rewrite elem_of_cons, filter_cons. destruct (decide (x = c)) as [->|Hne].
  - split; [cbn [length]; lia|by left].
  - rewrite <- IH. split; [intros [->|?]; done|by right].
Qed.
Lemma occurrences_none c s : c ∉ s → occurrences c s = 0.
Proof. intros H. rewrite occurrences_pos in H. unfold occurrences in *. lia. Qed.

Lemma pair_total x y : pair_geb x y = false → pair_geb y x = true.
Proof. unfold pair_geb. lia. Qed.
Lemma pair_trans x y z : pair_geb x y = true → pair_geb y z = true → pair_geb x z = true.
Proof. unfold pair_geb. lia. Qed.

Lemma detect_spec order s : order ≡ₚ separators →
  match detect_seperator order s with
  | Ok None => s = []
  | Ok (Some c) => chief_separator s c ∨ blank_separator s c
  | Err e => e = ValueError ∧ s ≠ [] ∧ (∀ x, x ∈ separators → x ∉ s) ∧ 32 ∉ s ∧ 10 ∉ s
  end.
Proof.
  intros Ho. unfold detect_seperator. destruct (decide (s = [])) as [|Hne]; [done|].
  assert (∀ x, x ∈ filter (λ c, c ∈ s) order ↔ x ∈ s ∧ x ∈ separators) as Hf by (intros x; by rewrite elem_of_list_filter, Ho).
  destruct (filter (λ c, c ∈ s) order) as [|a [|b l]] eqn:E.
  - assert (∀ x, x ∈ separators → x ∉ s) as Hno. { intros x Hx Hs. assert (x ∈ []) as H0 by (by apply Hf). by apply elem_of_nil in H0. }
    destruct (decide (32 ∈ s)); [right; split; [done|by left]|]. destruct (decide (10 ∈ s)); [right; split; [done|by right]|done].
  - left. destruct (proj1 (Hf a)) as [Ha1 Ha2]; [left|]. split; [done|]. split; [done|]. intros x Hx.
    destruct (decide (x = a)) as [->|Hxa]; [right; lia|]. left. rewrite (occurrences_none x); [by apply occurrences_pos|].
    intros Hs. assert (x ∈ [a]) as H0 by (by apply Hf). by apply elem_of_list_singleton in H0.
  - set (l' := a :: b :: l) in *. set (g := λ c, (zlen (filter (λ x, x = c) s), c)).
    pose proof (py_sort_perm pair_geb (map g l')) as Hp. pose proof (py_sort_sorted pair_geb pair_total pair_trans (map g l')) as Hs.
    destruct (py_sort pair_geb (map g l')) as [|f r] eqn:Es; [apply Permutation_length in Hp; done|].
    assert (f ∈ map g l') as Hin by (rewrite <- Hp; left). apply elem_of_list_fmap in Hin as (c & -> & Hc). cbn [snd g].
    left. apply Hf in Hc as [Hc1 Hc2]. split; [done|]. split; [done|]. intros x Hx. destruct (decide (x ∈ s)) as [Hxs|Hxs].
    + assert (g x ∈ g c :: r) as Hg. { rewrite Hp. apply elem_of_list_fmap. exists x. split; [done|]. by apply Hf. }
      apply elem_of_cons in Hg as [Hg|Hg]; [injection Hg as E1 ->; right; lia|].
      apply StronglySorted_inv in Hs as [_ Hs]. rewrite list.Forall_forall in Hs. specialize (Hs _ Hg). unfold pair_geb, g in Hs. cbn [fst snd] in Hs.
      unfold occurrences. lia.
    + left. rewrite (occurrences_none x) by done. by apply occurrences_pos.
Qed.

(** the separator is the only one *)
Lemma detect_only order s d : order ≡ₚ separators → d ∈ separators → d ∈ s → (∀ x, x ∈ separators → x ≠ d → x ∉ s) →
  detect_seperator order s = Ok (Some d).
Proof.
  intros Ho Hd Hs Hx. pose proof (detect_spec order s Ho) as H. destruct (detect_seperator order s) as [[c|]|e].
  - destruct H as [(H1 & H2 & _)|[H _]].
    + destruct (decide (c = d)) as [->|Hne]; [done|]. by destruct (Hx c H1 Hne).
    + by destruct (H d Hd).
  - subst s. by apply elem_of_nil in Hs.
  - destruct H as (_ & _ & H & _). by destruct (H d Hd).
Qed.

(** ** Lines *)
Lemma py_lines_chars text : ∀ cur l c, l ∈ py_lines_from cur text → c ∈ l → c ∈ cur ∨ c ∈ text.
Proof.
  induction text as [text IH] using (induction_ltof1 _ (@length chr)). unfold ltof in IH.
  intros cur l c Hl Hc. destruct text as [|x text]; cbn [py_lines_from] in Hl.
  - destruct cur; [by apply elem_of_nil in Hl|]. apply elem_of_list_singleton in Hl as ->. by left.
  - assert (∀ cur' text', (length text' < length (x :: text))%nat → (∀ y, y ∈ cur' → y ∈ cur ∨ y ∈ x :: text) → (∀ y, y ∈ text' → y ∈ x :: text) →
      l ∈ py_lines_from cur' text' → c ∈ cur ∨ c ∈ x :: text) as G.
    { intros cur' text' Hlen H1 H2 H. destruct (IH text' Hlen cur' l c H Hc); auto. }
    destruct (x =? 10).
    + apply elem_of_cons in Hl as [->|Hl]; [by left|]. apply (G [] text); [cbn; lia|by intros y ?%elem_of_nil|intros y ?; by right|done].
    + destruct (x =? 13).
      * assert (∃ text', l ∈ cur :: py_lines_from [] text' ∧ (length text' < length (x :: text))%nat ∧ ∀ y, y ∈ text' → y ∈ x :: text) as (text' & Hl' & Hlen & Hsub).
        { destruct text as [|y text'']; [exists []; split; [done|]; split; [cbn; lia|by intros y ?%elem_of_nil]|].
          destruct (decide (y = 10)) as [->|Hy].
          - exists text''. split; [done|]. split; [cbn; lia|]. intros z Hz. right. by right.
          - exists (y :: text''). split.
            + destruct y as [|p|p]; try done. repeat (destruct p as [p|p|]; try done).
            + split; [cbn; lia|]. intros z Hz. by right. }
        apply elem_of_cons in Hl' as [->|Hl']; [by left|]. apply (G [] text'); [done|by intros y ?%elem_of_nil|done|done].
      * apply (G (cur ++ [x]) text); [cbn; lia| |intros y ?; by right|done].
        intros y [?|H%elem_of_list_singleton]%elem_of_app; [by left|subst; right; left].
Qed.
Lemma join_lines_chars ls c : c ∈ join_lines ls → c = 10 ∨ ∃ l, l ∈ ls ∧ c ∈ l.
Proof.
  induction ls as [|l ls IH]; intros H; [by apply elem_of_nil in H|]. destruct ls as [|l2 ls].
  - right. exists l. split; [left|done].
  - change (join_lines (l :: l2 :: ls)) with (l ++ 10 :: join_lines (l2 :: ls)) in H. apply elem_of_app in H as [H|[->|H]%elem_of_cons].
    + right. exists l. split; [left|done].
    + by left.
    + destruct (IH H) as [?|(l' & ? & ?)]; [by left|right]. exists l'. split; [by right|done].
Qed.
Lemma sample_chars i n text c : c ∈ join_lines (sample_lines i n text) → c = 10 ∨ c ∈ text.
Proof.
  intros [?|(l & Hl & Hc)]%join_lines_chars; [by left|right]. unfold sample_lines in Hl. apply elem_of_take in Hl as (k & Hk & _).
  rewrite lookup_drop in Hk. apply elem_of_list_lookup_2 in Hk. destruct (py_lines_chars text [] l c Hk Hc) as [H|]; [by apply elem_of_nil in H|done].
Qed.
Lemma py_lines_crlf text rest : 10 ∉ text → 13 ∉ text → ∀ cur, py_lines_from cur (text ++ 13 :: 10 :: rest) = (cur ++ text) :: py_lines_from [] rest.
Proof.
  induction text as [|x text IH]; intros H1 H2 cur.
  - cbn. by rewrite app_nil_r.
  - cbn [app py_lines_from]. rewrite not_elem_of_cons in H1, H2. destruct (Z.eqb_spec x 10); [naive_solver|]. destruct (Z.eqb_spec x 13); [naive_solver|].
    rewrite IH by (by apply H1 || by apply H2). by rewrite <- app_assoc.
Qed.

(** ** The headers and the import *)
Lemma getHeaders_rows dia skip count text rows : getHeaders dia skip count text = Ok rows →
  rows = map (map stripEscape) (take (Nat.max 1 (Z.to_nat count)) (drop skip (parse_csv dia text).1)).
Proof. unfold getHeaders. destruct (parse_csv dia text) as [recs ok]. cbn [fst]. destruct (_ || ok); [congruence|done]. Qed.

Lemma dedup_twice hs ns : dedup_headers hs = Some ns → dedup_headers ns = Some ns.
Proof.
  intros H. destruct (dedup_headers_spec hs) as (ns' & H' & Hnd & _). assert (ns' = ns) as -> by congruence. by apply dedup_distinct.
Qed.

Lemma import_names {X} (task : _ → _ → _ → option (list (list X))) digits dia text hr ps start limit tbl count row rest :
  0 <= hr →
  text_import_with task (λ f, string_of (stripEscape f)) digits dia text None true hr ps start limit = Some tbl →
  getHeaders dia (Z.to_nat hr) count text = Ok (row :: rest) → dedup_headers (map string_of row) = Some tbl.*1.
Proof.
  intros Hhr Himp Hrows%getHeaders_rows. unfold text_import_with, import_with in Himp.
  destruct (find_newlines dia text) as [[offs n]|] eqn:En; [|done]. cbn [mbind option_bind] in Himp.
  destruct ((0 <? n) && (hr <? n)); [|done]. destruct (offs !! Z.to_nat hr) as [off|] eqn:Eo; [|done]. cbn [mbind option_bind] in Himp.
  pose proof (find_newlines_spec dia text offs n En) as (_ & _ & _ & Hoff).
  destruct (drop (Z.to_nat hr) (parse_csv dia text).1) as [|first later] eqn:Ed; [by rewrite take_nil in Hrows|].
  assert (Z.to_nat hr <= length (parse_csv dia text).1)%nat as Hle.
  { apply (f_equal length) in Ed. rewrite drop_length in Ed. cbn [length] in Ed. lia. }
  destruct (Hoff _ _ Hle Eo) as [_ Hp]. rewrite Hp, Ed in Himp. cbn [head fst mbind option_bind] in Himp.
  destruct (Nat.max 1 (Z.to_nat count)) as [|k] eqn:Ek; [lia|]. cbn [take map] in Hrows. injection Hrows as -> _.
  unfold field_names in Himp. rewrite map_map. destruct (dedup_headers (map (λ f, string_of (stripEscape f)) first)) as [fields|] eqn:Ef; [|done]. cbn [mbind option_bind] in Himp.
  unfold import_columns in Himp. cbn [default] in Himp. change (from_option id fields None) with fields in Himp.
  destruct (decide _); [|done]. rewrite (dedup_twice _ _ Ef) in Himp. cbn [mbind option_bind fst snd] in Himp.
  destruct (mapM _ _) as [pages|]; [|done]. cbn [mbind option_bind] in Himp. injection Himp as <-.
  rewrite <- list_fmap_compose. f_equal.
  transitivity ((zip fields fields).*1); [symmetry; apply fst_zip; lia|]. by apply list_fmap_ext.
Qed.

Lemma headers_rows order s d q i count text h : text_reader_headers order s (Some d) q i count text = Ok h →
  getHeaders (tablite_dialect d q true) i count text = Ok (h_rows h).
Proof. unfold text_reader_headers. destruct (getHeaders _ i count text); [|done]. cbn. by intros [= <-]. Qed.
Lemma headers_import {X} (task : _ → _ → _ → option (list (list X))) order s d q digits text hr ps start limit tbl count h row rest :
  0 <= hr →
  text_import_with task (λ f, string_of (stripEscape f)) digits (tablite_dialect d q true) text None true hr ps start limit = Some tbl →
  text_reader_headers order s (Some d) q (Z.to_nat hr) count text = Ok h → h_rows h = row :: rest →
  dedup_headers (map string_of row) = Some tbl.*1.
Proof. intros Hhr Himp Hh Er. apply headers_rows in Hh. rewrite Er in Hh. by eapply import_names. Qed.

(** ** Exported tables *)
Lemma csv_field_chars d a f c : c ∈ csv_field d a f → c = 34 ∨ c ∈ f.
Proof.
  unfold csv_field. destruct (to_be_quoted d a f); [|by right]. intros H. apply elem_of_cons in H as [->|H]; [by left|]. apply elem_of_app in H as [H|H]; [|apply elem_of_list_singleton in H as ->; by left].
  apply elem_of_list_In, in_concat in H as (l & Hl & Hc%elem_of_list_In). apply elem_of_list_In, elem_of_list_fmap in Hl as (x & -> & Hx).
  destruct (x =? 34) eqn:E; [left; set_solver|]. apply elem_of_list_singleton in Hc as ->. by right.
Qed.
Lemma csv_join_chars d fs c : c ∈ csv_join d fs → c = d ∨ ∃ f, f ∈ fs ∧ c ∈ f.
Proof.
  induction fs as [|f fs IH]; intros H; [by apply elem_of_nil in H|]. destruct fs as [|f2 fs].
  - right. exists f. split; [left|done].
  - change (csv_join d (f :: f2 :: fs)) with (f ++ d :: csv_join d (f2 :: fs)) in H. apply elem_of_app in H as [H|[->|H]%elem_of_cons].
    + right. exists f. split; [left|done].
    + by left.
    + destruct (IH H) as [?|(l' & ? & ?)]; [by left|right]. exists l'. split; [by right|done].
Qed.
Lemma row_chars d fs c : c ∈ writerow d fs → c = d ∨ c = 34 ∨ c = 13 ∨ c = 10 ∨ ∃ f, f ∈ fs ∧ c ∈ f.
Proof.
  unfold writerow. intros [H|H]%elem_of_app.
  - apply csv_join_chars in H as [?|(f & Hf & Hc)]; [by left|]. apply elem_of_list_fmap in Hf as (g & -> & Hg).
    apply csv_field_chars in Hc as [?|?]; [auto|]. do 4 right. by exists g.
  - set_solver.
Qed.
Lemma separator_special x : x ∈ separators → x ≠ 34 ∧ x ≠ 13 ∧ x ≠ 10.
Proof. unfold separators. rewrite !elem_of_cons, elem_of_nil. lia. Qed.

Section Exported.
  Context {T : Type} (fshow : Z → list Z) (t : table string cell T) (quotes : bool) (d : chr).
  Local Notation v := (contents t).
  Local Notation n := (nrows v).
  Hypothesis Hd : d = 44 ∨ d = 9 ∨ d = 124.
  Hypothesis Htwo : (2 <= length v)%nat.
  Hypothesis Hnd : NoDup v.*1.
  Hypothesis Hnames : ∀ name, name ∈ v.*1 → name_comes_back quotes true d false (bytes_of name).
  Hypothesis Hvalues : ∀ c x, c ∈ v → x ∈ filled n c.2 → value_comes_back fshow quotes true d false x.
  Hypothesis Hn : ∀ name x, name ∈ v.*1 → x ∈ separators → x ≠ d → x ∉ bytes_of name.
  Hypothesis Hv : ∀ c y x, c ∈ v → y ∈ filled n c.2 → x ∈ separators → x ≠ d → x ∉ txt fshow y.

  Let header : list (list chr) := map bytes_of v.*1.
  Let data : list (list (list chr)) := map (map (txt fshow)) (rows CNone v).

  Lemma text_chars x : x ∈ separators → x ≠ d → x ∉ text_of d (header :: data).
  Proof using Hn Hv Htwo.
    intros Hx Hxd H. destruct (separator_special x Hx) as (N1 & N2 & N3). unfold text_of in H.
    apply elem_of_list_In, in_concat in H as (l & Hl & Hc%elem_of_list_In). apply elem_of_list_In, elem_of_list_fmap in Hl as (r & -> & Hr).
    apply row_chars in Hc as [?|[?|[?|[?|(f & Hf & Hc)]]]]; try done. apply elem_of_cons in Hr as [->|Hr].
    - unfold header in Hf. apply elem_of_list_fmap in Hf as (name & -> & Hf). by eapply Hn.
    - unfold data in Hr. apply elem_of_list_fmap in Hr as (r' & -> & Hr). unfold rows in Hr.
      apply elem_of_list_fmap in Hr as (i & -> & Hi). apply elem_of_seq in Hi. unfold row in Hf.
      rewrite map_map in Hf. apply elem_of_list_fmap in Hf as (c & -> & Hf).
      assert (length c.2 <= n)%nat as Hl by (destruct c as [name l]; by eapply nrows_le).
      eapply (Hv c); [done| |done|exact Hxd|exact Hc]. eapply elem_of_list_lookup_2. apply filled_at; [done|lia].
  Qed.

  Lemma header_line count : ∃ l, sample_lines 0 count (text_of d (header :: data)) = l :: take (Z.to_nat count) (py_lines (text_of d data)) ∧ d ∈ l.
  Proof using Hd Hn Hnames Hnd Htwo Hv Hvalues.
    exists (csv_join d (map (csv_field d (bool_decide (length header = 1%nat))) header)).
    assert (∀ c, c = 10 ∨ c = 13 → c ∉ csv_join d (map (csv_field d (bool_decide (length header = 1%nat))) header)) as Hc.
    { intros c Hc H. apply csv_join_chars in H as [?|(f & Hf & H)]; [lia|]. apply elem_of_list_fmap in Hf as (g & -> & Hg).
      apply csv_field_chars in H as [?|H]; [lia|]. unfold header in Hg. apply elem_of_list_fmap in Hg as (name & -> & Hname).
      destruct (Hnames name Hname) as (_ & _ & H1 & H2). unfold NL, CR in *. by destruct Hc as [->| ->]. }
    split.
    - unfold sample_lines, py_lines, text_of. cbn [drop map concat]. unfold writerow at 1. rewrite <- app_assoc. cbn [app].
      rewrite py_lines_crlf by auto. done.
    - unfold header. destruct v as [|[a la] [|[b lb] w]]; cbn in Htwo; try lia. cbn [map fst fmap list_fmap].
      cbn [csv_join]. destruct w; apply elem_of_app; right; left.
  Qed.

  Lemma exported_headers order s count : order ≡ₚ separators → ∃ text, text_writer fshow d t = Ok text ∧
    text_reader_headers order s None (if quotes then Some 34 else None) 0 count text =
    Ok (Headers (Some (Some d)) (take (Nat.max 1 (Z.to_nat count)) (map bytes_of v.*1 :: map (map (λ x, stripEscape (txt fshow x))) (rows CNone v))) false).
  Proof using Hd Htwo Hnd Hnames Hvalues Hn Hv.
    intros Ho. exists (text_of d (header :: data)).
    assert (bool_decide (length v = 1%nat) = false) as Ha by (apply bool_decide_eq_false; lia).
    split; [apply written|]. unfold text_reader_headers.
    destruct (header_line count) as (l & El & Hl). assert (d ∈ separators) as Hsep. { unfold separators. rewrite !elem_of_cons. destruct Hd as [->|[->| ->]]; auto 6. }
    rewrite (detect_only order _ d Ho Hsep).
    - unfold getHeaders. unfold header, data.
      rewrite (parsed_again fshow t quotes true d Hd) by (first [done | by intros E; rewrite E in Htwo; cbn in Htwo; lia | by rewrite Ha]).
      rewrite orb_true_r. cbn [res_map drop]. do 3 f_equal. rewrite <- firstn_map. f_equal. cbn [map]. f_equal.
      + rewrite map_map. apply map_ext_in. intros name Hin%elem_of_list_In. destruct (Hnames name Hin) as ((_ & H & _) & H1 & H2 & H3).
        by rewrite stripEscape_id.
      + rewrite map_map. apply map_ext. intros r. by rewrite map_map.
    - rewrite El. destruct (take _ _); [done|]. apply elem_of_app. by left.
    - intros x Hx Hxd H. apply sample_chars in H as [->|H]; [by destruct (separator_special 10 Hx) as (_ & _ & [])|]. by apply (text_chars x).
  Qed.
End Exported.

(** ** Where it fails *)
Lemma detect_of order s c : order ≡ₚ separators → chief_separator s c ∨ blank_separator s c → detect_seperator order s = Ok (Some c).
Proof.
  intros Ho Hc. pose proof (detect_spec order s Ho) as H. destruct (detect_seperator order s) as [[c'|]|e].
  - do 2 f_equal. destruct H as [(H1 & H2 & H3)|[H1 H2]], Hc as [(C1 & C2 & C3)|[C1 C2]].
    + specialize (H3 _ C1). specialize (C3 _ H1). lia.
    + by destruct (C1 c').
    + by destruct (H1 c).
    + destruct H2 as [[-> ?]|(-> & ? & ?)], C2 as [[-> ?]|(-> & ? & ?)]; done.
  - subst s. destruct Hc as [(_ & H & _)|[_ [[_ H]|(_ & _ & H)]]]; by apply elem_of_nil in H.
  - destruct H as (_ & _ & H1 & H2 & H3). destruct Hc as [(C1 & C2 & _)|[_ [[_ ?]|(_ & _ & ?)]]]; [by destruct (H1 c)|done|done].
Qed.
Definition chief_check (s : list chr) (c : chr) : bool :=
  bool_decide (c ∈ separators) && bool_decide (c ∈ s) &&
  forallb (λ x, (occurrences x s <? occurrences c s) || ((occurrences x s =? occurrences c s) && (x <=? c))) separators.
Lemma chief_checked s c : chief_check s c = true → chief_separator s c.
Proof.
  unfold chief_check. rewrite !andb_true_iff, forallb_forall. intros [[H1%bool_decide_eq_true H2%bool_decide_eq_true] H3]. split; [done|]. split; [done|].
  intros x Hx%elem_of_list_In. specialize (H3 x Hx). lia.
Qed.

Lemma default_delimiter_differs fa order : order ≡ₚ separators → ∃ text,
  text_reader_headers order Csv None None 0 10 text
    = Ok (Headers (Some (Some 59)) [[bytes_of "a"; bytes_of "b"]; [bytes_of "1"; bytes_of "2"]] false) ∧
  fmap (M := option) (map fst) (from_file fa false None None true (λ _, ""%string) 100 text) = Some ["a;b"%string].
Proof.
  intros Ho. exists (bytes_of "a;b" ++ [10] ++ bytes_of "1;2" ++ [10]). split; [|by vm_compute].
  unfold text_reader_headers. rewrite (detect_of order _ 59 Ho); [by vm_compute|]. left. apply chief_checked. by vm_compute.
Qed.
Lemma exported_differs fshow order : order ≡ₚ separators →
  (∃ text, text_writer fshow 44 ([("name"%string, [MkPage [CStr (bytes_of "John Doe")] []])] : table string cell unit) = Ok text ∧
    text_reader_headers order Csv None (Some 34) 0 10 text
      = Ok (Headers (Some (Some 32)) [[bytes_of "name"]; [bytes_of "John"; bytes_of "Doe"]] false)) ∧
  (∃ text, text_writer fshow 44 ([("a"%string, [MkPage [CTime 0] []]); ("b"%string, [MkPage [CTime 0] []])] : table string cell unit) = Ok text ∧
    text_reader_headers order Csv None (Some 34) 0 10 text
      = Ok (Headers (Some (Some 58)) [[bytes_of "a,b"]; [bytes_of "00"; bytes_of "00"; bytes_of "00,00"; bytes_of "00"; bytes_of "00"]] false)).
Proof.
  intros Ho. split.
  - eexists. split; [vm_compute; reflexivity|]. unfold text_reader_headers. rewrite (detect_of order _ 32 Ho); [by vm_compute|]. right.
    split; [|left; split; [done|apply (bool_decide_unpack _); vm_compute; exact I]].
    unfold separators. intros x Hx. rewrite !elem_of_cons, elem_of_nil in Hx.
    destruct Hx as [->|[->|[->|[->|[->|[]]]]]]; apply (bool_decide_unpack _); vm_compute; exact I.
  - eexists. split; [vm_compute; reflexivity|]. unfold text_reader_headers. rewrite (detect_of order _ 58 Ho); [by vm_compute|]. left. apply chief_checked. by vm_compute.
Qed.
