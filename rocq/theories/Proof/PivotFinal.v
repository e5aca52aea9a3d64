From Coq Require Import Ascii.
From stdpp Require Import strings pretty.
From Verif.Spec Require Export Groupby.
From Verif.Proof Require Export GridFinal.
From Verif.Proof Require Import JoinBase GroupbyProofs GroupbyTable PageLifeProofs SelectFinal.
Local Open Scope Z_scope.

(** ** names *)
Definition rparen : ascii := ")"%char.
Definition lparen : ascii := "("%char.
Lemma pretty_no_rparen (n : N) : rparen ∉ chars (pretty n).
Proof.
  unfold pretty, pretty_N. case_decide.
  - cbn. set_solver.
  - assert (Hgo : ∀ s, rparen ∉ chars s → rparen ∉ chars (pretty_N_go n s)).
    { clear. induction (N.lt_wf_0 n) as [x _ IH]; intros s Hs.
      assert (x = 0 ∨ 0 < x)%N as [->|Hx] by lia; [by rewrite pretty_N_go_0|].
      rewrite pretty_N_go_step by done. apply IH; [by apply N.div_lt|]. cbn [list_ascii_of_string].
      rewrite not_elem_of_cons. split; [|done]. unfold pretty_N_char, rparen. repeat case_match; done. }
    apply Hgo. cbn. apply not_elem_of_nil.
Qed.
Lemma paren_not_numbered a b k : (a +:+ ")")%string ≠ numbered b k.
Proof.
  intros H. apply (f_equal chars) in H. unfold numbered in H. rewrite !chars_app in H. change (chars ")") with [rparen] in H. change (chars "_") with [underscore] in H.
  apply (f_equal reverse) in H. rewrite !reverse_app in H. cbn [reverse rev_append app] in H. rewrite <- !app_assoc in H.
  pose proof (pretty_no_rparen k) as Hn. rewrite <- elem_of_reverse in Hn.
  destruct (reverse (chars (pretty k))) as [|c l].
  - cbn in H. discriminate.
  - cbn [app] in H. change (reverse [rparen]) with [rparen] in H. injection H as <- _. apply Hn. by left.
Qed.

Lemma string_assoc (a b c : string) : (a +:+ (b +:+ c))%string = ((a +:+ b) +:+ c)%string.
Proof. apply chars_inj. rewrite !chars_app. apply app_assoc. Qed.
Lemma concat_comma (x : string) l : ∃ rest, ∀ x : string, String.concat "," (x :: l) = (x +:+ rest)%string.
Proof.
  destruct l as [|y l].
  - exists "". intros z. cbn. apply chars_inj. rewrite chars_app. symmetry. apply app_nil_r.
  - exists ("," +:+ String.concat "," (y :: l))%string. intros z. done.
Qed.
Section labels.
  Context {A : Type} (show : A → string).
  Lemma fun_col_label_inj columns ck f f' : lparen ∉ chars f.2 → lparen ∉ chars f'.2 →
    fun_col_label show columns ck f = fun_col_label show columns ck f' → f = f'.
  Proof.
    intros H1 H2. unfold fun_col_label. destruct (concat_comma "" (terms show columns ck)) as [rest Hr]. rewrite !Hr.
    intros H. apply (f_equal chars) in H. rewrite !chars_app in H. change (chars "(") with [lparen] in H. cbn [app] in H.
    apply mark_split in H as [Ha Hb]; [|done..]. apply app_inv_tail, app_inv_tail in Hb. apply chars_inj in Ha, Hb.
    destruct f, f'. cbn [fst snd] in *. congruence.
  Qed.
  Lemma batch_distinct columns functions ck used ns : NoDup functions → Forall (λ f, lparen ∉ chars f.2) functions →
    mapM (λ n, unique_name n used) (map (fun_col_label show columns ck) functions) = Some ns → NoDup ns.
  Proof.
    intros Hnd Hp HF%mapM_Some. apply NoDup_alt. intros i j x Hi Hj.
    destruct (Forall2_lookup_r _ _ _ _ _ HF Hi) as (l & Hl & Hlx). destruct (Forall2_lookup_r _ _ _ _ _ HF Hj) as (l' & Hl' & Hlx').
    cbn beta in Hlx, Hlx'. change (map ?f ?x) with (f <$> x) in Hl, Hl'.
    apply list_lookup_fmap_Some in Hl as (f & Hf & ->). apply list_lookup_fmap_Some in Hl' as (f' & Hf' & ->).
    assert (f = f') as <-.
    { apply (fun_col_label_inj columns ck); [exact (proj1 (list.Forall_lookup _ _) Hp i f Hf)|exact (proj1 (list.Forall_lookup _ _) Hp j f' Hf')|].
      destruct (unique_name_spec (fun_col_label show columns ck f) used) as (y & Hy & _ & Hcase).
      destruct (unique_name_spec (fun_col_label show columns ck f') used) as (y' & Hy' & _ & Hcase').
      rewrite Hlx in Hy. rewrite Hlx' in Hy'. injection Hy as <-. injection Hy' as <-.
      assert (Hend : ∀ f k b, fun_col_label show columns ck f ≠ numbered b k).
      { intros f0 k b. unfold fun_col_label. rewrite !string_assoc. apply paren_not_numbered. }
      destruct Hcase as [[_ Hc]|(_ & k & _ & Hc & _)]; destruct Hcase' as [[_ Hc']|(_ & k' & _ & Hc' & _)].
      - congruence.
      - exfalso. apply (Hend f k' (fun_col_label show columns ck f')). congruence.
      - exfalso. apply (Hend f' k (fun_col_label show columns ck f)). congruence.
      - rewrite Hc in Hc'. unfold numbered in Hc'. by apply numbered_split in Hc' as [? _]. }
    exact (NoDup_lookup _ _ _ _ Hnd Hf Hf').
  Qed.
End labels.

(** ** the functions *)
Lemma str2accs_Forall2 functions accs : str2accs functions = Ok accs →
  Forall2 (λ f a, a.1 = f.1 ∧ str2accumulator f.2 = Ok a.2) functions accs.
Proof.
  revert accs. induction functions as [|[cn fn] functions IH]; intros accs H; cbn [str2accs] in H.
  - injection H as <-. constructor.
  - destruct (str2accumulator fn) as [a|] eqn:Ea; [|done]. cbn [res_bind] in H.
    destruct (str2accs functions) as [r|]; [|done]. cbn [res_map] in H. injection H as <-. constructor; [done|by apply IH].
Qed.
Lemma to_lower_lparen s : lparen ∈ chars s → lparen ∈ chars (to_lower s).
Proof.
  intros H. unfold to_lower. rewrite list_ascii_of_string_of_list_ascii. apply elem_of_list_fmap. exists lparen. split; [done|exact H].
Qed.
Lemma acc_no_paren s a : str2accumulator s = Ok a → lparen ∉ chars s.
Proof.
  intros Ha Hp%to_lower_lparen. unfold str2accumulator in Ha. revert Ha Hp. generalize (to_lower s). clear.
  assert (Hno : ∀ x : string, bool_decide (lparen ∈ chars x) = false → lparen ∉ chars x) by (intros x; by intros ?%bool_decide_eq_false).
  intros l Ha Hp. repeat (case_decide as Hd; [first [destruct Hd as [-> | ->] | subst l]; by apply Hno in Hp|clear Hd]). done.
Qed.
Lemma new_names_functions keys functions accs : str2accs functions = Ok accs → NoDup (new_names keys accs) →
  NoDup functions ∧ Forall (λ f, lparen ∉ chars f.2) functions ∧ length accs = length functions.
Proof.
  intros Hs Hnd. apply str2accs_Forall2 in Hs. apply list.NoDup_app in Hnd as (_ & _ & Hnd). split_and!.
  - apply NoDup_alt. intros i j f Hi Hj. destruct (Forall2_lookup_l _ _ _ _ _ Hs Hi) as (a & Ha & Ha1 & Ha2).
    destruct (Forall2_lookup_l _ _ _ _ _ Hs Hj) as (b & Hb & Hb1 & Hb2).
    eapply (NoDup_lookup _ i j); [exact Hnd| |]; change (map ?f ?x) with (f <$> x); rewrite list_lookup_fmap.
    + by rewrite Ha.
    + rewrite Hb. cbn. rewrite Ha1, Hb1. rewrite Ha2 in Hb2. by injection Hb2 as ->.
  - apply list.Forall_forall. intros f [i Hi]%elem_of_list_lookup. destruct (Forall2_lookup_l _ _ _ _ _ Hs Hi) as (a & _ & _ & Ha2).
    by eapply acc_no_paren.
  - symmetry. by eapply Forall2_length.
Qed.

Lemma distinct_map {K L} `{EqDecision K, EqDecision L} (f : K → L) (l : list K) : distinct (map f (distinct l)) = distinct (map f l).
Proof.
  induction l as [|x l IH] using rev_ind; [done|]. rewrite distinct_snoc, map_app. cbn [map]. rewrite distinct_snoc.
  destruct (decide (x ∈ distinct l)) as [Hx|Hx].
  - rewrite IH. destruct (decide (f x ∈ distinct (map f l))) as [|Hn]; [done|]. exfalso. apply Hn. apply elem_of_distinct.
    apply elem_of_list_fmap_1. by apply elem_of_distinct.
  - rewrite map_app. cbn [map]. rewrite distinct_snoc, IH. done.
Qed.
Lemma firsts_distinct {A E} `{EqDecision A, EqDecision E} (ek : A → E) (l : list (list A)) :
  (∀ x y, x ∈ l → y ∈ l → map ek x = map ek y → x = y) → firsts ek l = distinct l.
Proof.
  induction l as [|a l IH]; intros Hinj; [done|]. cbn [firsts distinct]. f_equal. rewrite IH.
  - assert (Hf : ∀ l' : list (list A), (∀ x, x ∈ l' → x ∈ l) → filter (λ k', map ek k' ≠ map ek a) l' = filter (λ k', k' ≠ a) l').
    { induction l' as [|b l' IHl]; intros Hin; [done|]. rewrite !filter_cons, IHl by (intros x Hx; apply Hin; by right).
      destruct (decide (b ≠ a)) as [Hd|Hd]; destruct (decide (map ek b ≠ map ek a)) as [Hd'|Hd']; try done.
      - exfalso. apply Hd'. intros He. apply Hd. apply Hinj; [right; apply Hin; left|left|done].
      - exfalso. apply Hd. intros ->. done. }
    apply Hf. intros x. by rewrite elem_of_distinct.
  - intros x y Hx Hy. apply Hinj; by right.
Qed.

Section top.
  Context {E T : Type} `{EqDecision E, EqDecision T} (ek : pyval → E) (show : pyval → string) (sqrt : Qc → Qc) (ty : pyval → T) (ps : Z) (Hps : 0 < ps).
  Notation tbl := (table string pyval T).
  Implicit Type v : view (N := string) (A := pyval).

  Notation keys_apart := (keys_apart ek).
  Notation agg_cell := (agg_cell sqrt).
  Notation agg_rows := (agg_rows sqrt).
  Notation agg_columns := (agg_columns sqrt).

  Lemma key_at_app v ks ks' i : key_at VNone v (ks ++ ks') i = key_at VNone v ks i ++ key_at VNone v ks' i.
  Proof. apply map_app. Qed.
  Lemma keys_inj v keys n i j : keys_apart v keys n → (i < n)%nat → (j < n)%nat →
    map ek (key_at VNone v keys i) = map ek (key_at VNone v keys j) → key_at VNone v keys i = key_at VNone v keys j.
  Proof.
    intros Ha Hi Hj. unfold key_at. rewrite !map_map. intros H. pose proof (proj1 (map_ext_in_iff (f := λ x, ek (field VNone v x i)) (g := λ x, ek (field VNone v x j))) H) as Hm'.
    apply map_ext_in. intros m Hm. apply Ha; [by apply elem_of_list_In|done|done|]. exact (Hm' m Hm).
  Qed.

  Section facts.
    Context (v : view (N := string) (A := pyval)) (rws columns : list string) (n : nat) (accs : list (string * accumulator)).
    Notation keys := (rws ++ columns).
    Context (Hap : keys_apart v keys n).
    Context (grouped : list (list pyval)).
    Context (HF : Forall2 (out_row sqrt v keys accs n) (groups VNone v keys n) grouped).

    Definition to_fact (k row : list pyval) : list pyval * list pyval * list pyval :=
      (take (length rws) k, drop (length rws) k, drop (length k) row).
    Definition facts := zip_with to_fact (groups VNone v keys n) grouped.

    Lemma facts_rows : map to_row facts = grouped.
    Proof using HF.
      unfold facts. clear Hap. induction HF as [|k row ks rs Hk HF' IH]; [done|]. cbn [zip_with map]. f_equal; [|apply IH, HF'].
      destruct Hk as (vs & -> & _). unfold to_row, to_fact. cbn [fst snd]. rewrite drop_app. rewrite (assoc_L (++)), take_drop. done.
    Qed.
    Lemma facts_keys : facts.*1 = map (λ k, (take (length rws) k, drop (length rws) k)) (groups VNone v keys n).
    Proof using HF.
      unfold facts. clear Hap. induction HF as [|k row ks rs Hk HF' IH]; [done|]. cbn [zip_with map]. rewrite fmap_cons. f_equal. apply IH, HF'.
    Qed.
    Lemma facts_len : Forall (λ f, length f.1.1 = length rws ∧ length f.1.2 = length columns ∧ length f.2 = length accs) facts.
    Proof using HF.
      apply list.Forall_forall. intros f [i Hi]%elem_of_list_lookup. unfold facts in Hi. rewrite lookup_zip_with in Hi.
      destruct (groups VNone v keys n !! i) as [k|] eqn:Ek; [|done]. cbn in Hi. destruct (grouped !! i) as [row|] eqn:Er; [|done].
      injection Hi as <-. destruct (Forall2_lookup_lr _ _ _ _ _ _ HF Ek Er) as (vs & -> & HFv).
      apply elem_of_list_lookup_2, key_length in Ek. rewrite app_length in Ek. cbn [to_fact fst snd].
      rewrite take_length, !drop_length, app_length. apply Forall2_length in HFv. lia.
    Qed.
    Lemma group_elem k : k ∈ groups VNone v keys n ↔ ∃ i, (i < n)%nat ∧ k = key_at VNone v keys i.
    Proof using Type.
      unfold groups. rewrite elem_of_distinct. change (map ?f ?x) with (f <$> x). rewrite elem_of_list_fmap. split.
      - intros (i & -> & Hi%elem_of_seq). exists i. split; [lia|done].
      - intros (i & Hi & ->). exists i. split; [done|]. apply elem_of_seq. lia.
    Qed.
    Lemma group_eq k k' : k ∈ groups VNone v keys n → k' ∈ groups VNone v keys n → map ek k = map ek k' → k = k'.
    Proof using Hap. intros (i & Hi & ->)%group_elem (j & Hj & ->)%group_elem. by eapply keys_inj. Qed.
    Lemma facts_apart : NoDup (map (pair_key ek) facts).
    Proof using HF Hap.
      assert (map (pair_key ek) facts = map (λ p, (map ek p.1, map ek p.2)) facts.*1) as ->.
      { change (facts.*1) with (map fst facts). rewrite map_map. done. }
      rewrite facts_keys, map_map. cbn [fst snd]. apply NoDup_alt. intros i j x Hi Hj. change (map ?f ?x) with (f <$> x) in Hi, Hj.
      apply list_lookup_fmap_Some in Hi as (k & Hk & ->). apply list_lookup_fmap_Some in Hj as (k' & Hk' & He). injection He as H1 H2.
      eapply NoDup_lookup; [apply (NoDup_distinct (map (key_at VNone v keys) (seq 0 n)))|exact Hk|].
      unfold groups in Hk'. rewrite Hk'. f_equal. symmetry. apply group_eq; [by apply elem_of_list_lookup_2 in Hk|by apply elem_of_list_lookup_2 in Hk'|].
      rewrite <- (take_drop (length rws) k), <- (take_drop (length rws) k'), !map_app. unfold fmap, list_fmap in H1, H2. congruence.
    Qed.
    Lemma take_key i : take (length rws) (key_at VNone v keys i) = key_at VNone v rws i.
    Proof using Type. rewrite key_at_app. apply take_app_alt. unfold key_at. by rewrite map_length. Qed.
    Lemma drop_key i : drop (length rws) (key_at VNone v keys i) = key_at VNone v columns i.
    Proof using Type. rewrite key_at_app. apply drop_app_alt. unfold key_at. by rewrite map_length. Qed.
    Lemma facts_row_keys : row_keys_of ek facts = groups VNone v rws n.
    Proof using HF Hap.
      unfold row_keys_of. rewrite facts_keys. change (?x.*1) with (map fst x). rewrite map_map. cbn [fst].
      rewrite firsts_distinct.
      - unfold groups. rewrite distinct_map, map_map. f_equal. apply map_ext. apply take_key.
      - intros x y (k & -> & (i & Hi & ->)%group_elem)%elem_of_list_fmap (k' & -> & (j & Hj & ->)%group_elem)%elem_of_list_fmap.
        rewrite !take_key. apply (keys_inj v rws n); [|done|done]. intros m a b Hm. apply Hap. apply elem_of_app. by left.
    Qed.
    Lemma facts_col_keys : col_keys_of ek facts = groups VNone v columns n.
    Proof using HF Hap.
      unfold col_keys_of. rewrite facts_keys. change (?x.*2) with (map snd x). rewrite map_map. cbn [snd].
      rewrite firsts_distinct.
      - unfold groups. rewrite distinct_map, map_map. f_equal. apply map_ext. apply drop_key.
      - intros x y (k & -> & (i & Hi & ->)%group_elem)%elem_of_list_fmap (k' & -> & (j & Hj & ->)%group_elem)%elem_of_list_fmap.
        rewrite !drop_key. apply (keys_inj v columns n); [|done|done]. intros m a b Hm. apply Hap. apply elem_of_app. by right.
    Qed.
    Lemma facts_cell rk ck j f : rk ∈ groups VNone v rws n → ck ∈ groups VNone v columns n → accs !! j = Some f →
      cell ek VNone facts rk ck j = agg_cell v keys n rk ck f.
    Proof using HF Hap.
      intros Hrk Hck Hf. unfold agg_cell.
      assert (Lr : length rk = length rws) by (by eapply key_length).
      assert (Hmem : members VNone v keys n (rk ++ ck) f.1 = [] ↔ rk ++ ck ∉ groups VNone v keys n).
      { rewrite group_elem. unfold members. split.
        - intros H (i & Hi & He). apply map_eq_nil in H.
          assert (i ∈ filter (λ i, key_at VNone v keys i = rk ++ ck) (seq 0 n)) as Hin.
          { apply elem_of_list_filter. split; [done|]. apply elem_of_seq. lia. }
          rewrite H in Hin. by apply elem_of_nil in Hin.
        - intros H. destruct (filter _ (seq 0 n)) as [|i l] eqn:Ef; [done|]. exfalso. apply H.
          assert (i ∈ filter (λ i, key_at VNone v keys i = rk ++ ck) (seq 0 n)) as Hin by (rewrite Ef; left).
          apply elem_of_list_filter in Hin as [H1 H2%elem_of_seq]. exists i. split; [lia|done]. }
      assert (Hrkap : ∀ k, k ∈ groups VNone v keys n → map ek (take (length rws) k) = map ek rk → take (length rws) k = rk).
      { intros k (i & Hi & ->)%group_elem He. rewrite take_key in *.
        assert (rk ∈ groups VNone v rws n) as Hrk' by done. unfold groups in Hrk'. rewrite elem_of_distinct in Hrk'.
        apply elem_of_list_fmap in Hrk' as (i' & -> & Hi'%elem_of_seq).
        apply (keys_inj v rws n); [|done|lia|done]. intros m a b Hm. apply Hap. apply elem_of_app. by left. }
      assert (Hckap : ∀ k, k ∈ groups VNone v keys n → map ek (drop (length rws) k) = map ek ck → drop (length rws) k = ck).
      { intros k (i & Hi & ->)%group_elem He. rewrite drop_key in *.
        assert (ck ∈ groups VNone v columns n) as Hck' by done. unfold groups in Hck'. rewrite elem_of_distinct in Hck'.
        apply elem_of_list_fmap in Hck' as (i' & -> & Hi'%elem_of_seq).
        apply (keys_inj v columns n); [|done|lia|done]. intros m a b Hm. apply Hap. apply elem_of_app. by right. }
      assert (Hfact : ∀ g, g ∈ facts → ∃ k row, g = to_fact k row ∧ k ∈ groups VNone v keys n ∧ out_row sqrt v keys accs n k row).
      { intros g [i Hi]%elem_of_list_lookup. unfold facts in Hi. rewrite lookup_zip_with in Hi.
        destruct (groups VNone v keys n !! i) as [k|] eqn:Ek; [|done]. cbn in Hi. destruct (grouped !! i) as [row|] eqn:Er; [|done].
        injection Hi as <-. exists k, row. split_and!; [done|by apply elem_of_list_lookup_2 in Ek|].
        exact (Forall2_lookup_lr _ _ _ _ _ _ HF Ek Er). }
      unfold cell. destruct (fact_at ek facts rk ck) as [vs|] eqn:Ef.
      - apply fact_at_elem in Ef as (g & Hg & <- & K1 & K2). destruct (Hfact g Hg) as (k & row & -> & Hk & vs & -> & HFv).
        cbn [to_fact fst snd] in *. apply Hrkap in K1; [|done]. apply Hckap in K2; [|done].
        assert (k = rk ++ ck) as -> by (rewrite <- K1, <- K2; symmetry; apply take_drop).
        rewrite drop_app. cbn. destruct (Forall2_lookup_l _ _ _ _ _ HFv Hf) as (x & Hx & Hrun). rewrite Hx. cbn.
        destruct (members VNone v keys n (rk ++ ck) f.1) as [|y l] eqn:Em; [|by rewrite Hrun].
        exfalso. apply (proj1 Hmem eq_refl). done.
      - cbn. assert (members VNone v keys n (rk ++ ck) f.1 = []) as ->; [|done]. apply Hmem. intros Hin.
        apply fact_at_None in Ef. apply Ef. assert (Hpk : map (pair_key ek) facts = map (λ p, (map ek p.1, map ek p.2)) facts.*1).
        { change (facts.*1) with (map fst facts). rewrite map_map. done. }
        rewrite Hpk, facts_keys, map_map. apply elem_of_list_fmap. exists (rk ++ ck). split; [|done]. cbn [fst snd].
        rewrite <- Lr, take_app, drop_app. done.
    Qed.
  End facts.

  Section pivot.
    Context (t : tbl) (rws columns : list string) (functions : list (string * string)) (accs : list (string * accumulator)) (n : nat).
    Notation keys := (rws ++ columns).
    Notation v := (contents t).
    Context (Hrect : rect n v) (Hkeys : NoDup keys) (Hfne : functions ≠ []) (Haccs : str2accs functions = Ok accs).
    Context (Hin : ∀ m, m ∈ keys ++ functions.*1 → m ∈ t.*1) (Hnames : NoDup (new_names keys accs)).
    Context (Hal : aligned t (keys ++ functions.*1)) (Hnat : native_cells t (keys ++ functions.*1)).
    Notation all_ok := (∀ k f, k ∈ groups VNone v keys n → f ∈ accs → ∃ x, run_acc sqrt f.2 (members VNone v keys n k f.1) = Ok x).

    Lemma accs_fst : accs.*1 = functions.*1.
    Proof using Haccs.
      pose proof (str2accs_Forall2 _ _ Haccs) as HF. clear -HF. induction HF as [|f a fs as_ [H1 _] HF IH]; [done|].
      rewrite !fmap_cons, IH. by rewrite H1.
    Qed.
    Lemma grouped_facts : (∃ out, tbl_groupby sqrt ty ps t keys functions = Ok out) ↔ all_ok.
    Proof using Hrect Hkeys Hfne Haccs Hin Hnames Hal Hnat.
      unfold tbl_groupby. rewrite Haccs. cbn [res_bind]. symmetry. apply (groupby_spec ty ps sqrt t keys accs n); try done.
      - intros ->. apply Hfne. apply nil_length_inv. symmetry. exact (proj2 (proj2 (new_names_functions _ _ _ Haccs Hnames))).
      - by rewrite accs_fst.
      - by rewrite accs_fst.
      - by rewrite accs_fst.
    Qed.
    Lemma grouped_rows out : tbl_groupby sqrt ty ps t keys functions = Ok out →
      Forall2 (out_row sqrt v keys accs n) (groups VNone v keys n) (rows VNone (contents out)).
    Proof using Hrect Hkeys Hfne Haccs Hin Hnames Hal Hnat.
      unfold tbl_groupby. rewrite Haccs. cbn [res_bind]. apply (groupby_spec ty ps sqrt t keys accs n); try done.
      - intros ->. apply Hfne. apply nil_length_inv. symmetry. exact (proj2 (proj2 (new_names_functions _ _ _ Haccs Hnames))).
      - by rewrite accs_fst.
      - by rewrite accs_fst.
      - by rewrite accs_fst.
    Qed.
    Notation run b := (pivot ek show sqrt ty ps t rws columns functions b).

    Lemma run_of b out : tbl_groupby sqrt ty ps t keys functions = Ok out →
      run b = pivot_grid ek VNone VStr show ty ps rws columns functions b (rows VNone (contents out)).
    Proof using Type. intros H. unfold pivot. rewrite H. cbn [res_bind]. rewrite tbl_rows_spec. done. Qed.
    Lemma run_err b e : tbl_groupby sqrt ty ps t keys functions = Err e → run b = Err e.
    Proof using Type. intros H. unfold pivot. by rewrite H. Qed.

    Theorem pivot_empty b : n = 0%nat → run b = Ok [].
    Proof using Hrect Hkeys Hfne Haccs Hin Hnames Hal Hnat.
      intros Hn. destruct (proj2 grouped_facts) as [out Hout].
      { intros k f Hk. exfalso. rewrite Hn in Hk. by apply elem_of_nil in Hk. }
      rewrite (run_of b out Hout). pose proof (grouped_rows out Hout) as HF. rewrite Hn in HF. apply Forall2_nil_inv_l in HF. by rewrite HF.
    Qed.

    Context (Hn : (0 < n)%nat).
    Lemma fs_ne out : tbl_groupby sqrt ty ps t keys functions = Ok out → facts v rws columns n (rows VNone (contents out)) ≠ [].
    Proof using Hrect Hkeys Hfne Haccs Hin Hnames Hal Hnat Hn.
      intros Hout Hnil. pose proof (grouped_rows out Hout) as HF. apply (f_equal length) in Hnil. unfold facts in Hnil.
      rewrite zip_with_length in Hnil. pose proof (Forall2_length _ _ _ HF) as HL. rewrite <- HL, Nat.min_id in Hnil. cbn [length] in Hnil.
      apply nil_length_inv in Hnil. assert (key_at VNone v keys 0 ∈ groups VNone v keys n) as Hk by (apply group_elem; eauto).
      rewrite Hnil in Hk. by apply elem_of_nil in Hk.
    Qed.

    Theorem pivot_collision b k k' : all_ok → k ∈ groups VNone v keys n → k' ∈ groups VNone v keys n → k ≠ k' → map ek k = map ek k' →
      run b = Err ValueError.
    Proof using Hrect Hkeys Hfne Haccs Hin Hnames Hal Hnat Hn.
      intros Hok Hk Hk' Hne He. destruct (proj2 grouped_facts Hok) as [out Hout]. rewrite (run_of b out Hout).
      pose proof (grouped_rows out Hout) as HF.
      rewrite <- (facts_rows v rws columns n accs _ HF). apply run_collision.
      - rewrite <- (proj2 (proj2 (new_names_functions _ _ _ Haccs Hnames))). exact (facts_len v rws columns n accs _ HF).
      - by apply fs_ne.
      - intros Hnd. apply Hne. clear Hne.
        assert (Hpk : map (pair_key ek) (facts v rws columns n (rows VNone (contents out))) = map (λ k, (map ek (take (length rws) k), map ek (drop (length rws) k))) (groups VNone v keys n)).
        { transitivity (map (λ p, (map ek p.1, map ek p.2)) (facts v rws columns n (rows VNone (contents out))).*1).
          - change (?x.*1) with (map fst x). rewrite map_map. done.
          - rewrite (facts_keys v rws columns n accs _ HF), map_map. done. }
        rewrite Hpk in Hnd. apply elem_of_list_lookup in Hk as [i Hi], Hk' as [j Hj].
        assert (i = j) as <-.
        { eapply NoDup_lookup; [exact Hnd| |]; change (map ?f ?x) with (f <$> x); rewrite list_lookup_fmap.
          - by rewrite Hi.
          - rewrite Hj. cbn. unfold fmap, list_fmap. change (map ek (take (length rws) k')) with (ek <$> take (length rws) k').
            change (map ek (take (length rws) k)) with (ek <$> take (length rws) k). change (map ek (drop (length rws) k)) with (ek <$> drop (length rws) k).
            change (map ek (drop (length rws) k')) with (ek <$> drop (length rws) k'). rewrite !fmap_take, !fmap_drop.
            change (ek <$> k) with (map ek k). change (ek <$> k') with (map ek k'). by rewrite He. }
        rewrite Hi in Hj. by injection Hj.
    Qed.

    Context (Hap : keys_apart v keys n).
    Theorem pivot_ok b : all_ok ↔ ∃ out, run b = Ok out.
    Proof using Hrect Hkeys Hfne Haccs Hin Hnames Hal Hnat Hn Hap Hps.
      split.
      - intros Hok. destruct (proj2 grouped_facts Hok) as [out Hout]. rewrite (run_of b out Hout).
        pose proof (grouped_rows out Hout) as HF. rewrite <- (facts_rows v rws columns n accs _ HF).
        destruct (new_names_functions _ _ _ Haccs Hnames) as (N1 & N2 & N3).
        pose proof (facts_len v rws columns n accs _ HF) as Hlen. rewrite N3 in Hlen.
        pose proof (facts_apart v rws columns n accs Hap _ HF) as Hnd. destruct b.
        + destruct (pivot_rows_spec ek VNone VStr show ty ps Hps rws columns functions _ Hlen (fs_ne out Hout) Hnd) as (t' & Ht' & _). eauto.
        + destruct (pivot_columns_spec ek VNone VStr show ty ps Hps rws columns functions _ Hlen (fs_ne out Hout) Hnd) as (t' & ns & Ht' & _); [|by right| |eauto].
          * by apply list.NoDup_app in Hkeys as (? & _).
          * intros ck used ns. by apply batch_distinct.
      - intros [out Hrun]. apply grouped_facts. destruct (tbl_groupby sqrt ty ps t keys functions) as [o|e] eqn:Eg; [eauto|].
        rewrite (run_err b e Eg) in Hrun. done.
    Qed.

    Theorem pivot_as_rows out : run true = Ok out →
      dedup_headers (rws ++ ["function"] ++ map (col_label show columns) (groups VNone v columns n)) = Some (names (contents out)) ∧
      rows VNone (contents out) = agg_rows v rws columns n functions accs.
    Proof using Hrect Hkeys Hfne Haccs Hin Hnames Hal Hnat Hn Hap Hps.
      intros Hrun. destruct (proj2 grouped_facts (proj2 (pivot_ok true) (ex_intro _ _ Hrun))) as [o Ho]. rewrite (run_of true o Ho) in Hrun.
      pose proof (grouped_rows o Ho) as HF. rewrite <- (facts_rows v rws columns n accs _ HF) in Hrun.
      destruct (new_names_functions _ _ _ Haccs Hnames) as (N1 & N2 & N3).
      pose proof (facts_len v rws columns n accs _ HF) as Hlen. rewrite N3 in Hlen.
      pose proof (facts_apart v rws columns n accs Hap _ HF) as Hnd.
      destruct (pivot_rows_spec ek VNone VStr show ty ps Hps rws columns functions _ Hlen (fs_ne o Ho) Hnd) as (t' & Ht' & Hd & Hr).
      rewrite Ht' in Hrun. injection Hrun as <-. rewrite (facts_col_keys v rws columns n accs Hap _ HF) in Hd. split; [exact Hd|].
      rewrite Hr. unfold grid_as_rows, agg_rows. rewrite (facts_row_keys v rws columns n accs Hap _ HF), (facts_col_keys v rws columns n accs Hap _ HF), map_length.
      f_equal. apply map_ext_in. intros rk Hrk. apply elem_of_list_In in Hrk. apply list_eq. intros j.
      change (map ?f (zip ?a ?b)) with (f <$> zip a b). rewrite !list_lookup_fmap, !lookup_zip_with.
      destruct (functions !! j) as [f|] eqn:Ef.
      - destruct (lookup_lt_is_Some_2 accs j) as [a Ha]; [apply lookup_lt_Some in Ef; lia|].
        assert (seq 0 (length functions) !! j = Some j) as -> by (apply lookup_seq_lt; by apply lookup_lt_Some in Ef).
        change (map (fun_label VStr) functions) with (fun_label VStr <$> functions). rewrite list_lookup_fmap, Ef, Ha. cbn [option_bind mbind fmap option_fmap option_map fst snd]. f_equal. unfold fun_label.
        apply (f_equal (λ l, rk ++ _ :: l)). apply map_ext_in. intros ck Hck. apply elem_of_list_In in Hck. by apply (facts_cell v rws columns n accs Hap _ HF).
      - apply lookup_ge_None in Ef. rewrite lookup_seq_ge by lia. done.
    Qed.
    Theorem pivot_as_columns out : run false = Ok out →
      let labels := concat (map (λ ck, map (fun_col_label show columns ck) functions) (groups VNone v columns n)) in
      (∃ ns, names (contents out) = rws ++ ns ∧ NoDup (rws ++ ns) ∧
        Forall2 (λ l n, n = l ∨ ∃ k, n = numbered l k) labels ns ∧ (NoDup (rws ++ labels) → ns = labels)) ∧
      rows VNone (contents out) = agg_columns v rws columns n accs.
    Proof using Hrect Hkeys Hfne Haccs Hin Hnames Hal Hnat Hn Hap Hps.
      intros Hrun labels. destruct (proj2 grouped_facts (proj2 (pivot_ok false) (ex_intro _ _ Hrun))) as [o Ho]. rewrite (run_of false o Ho) in Hrun.
      pose proof (grouped_rows o Ho) as HF. rewrite <- (facts_rows v rws columns n accs _ HF) in Hrun.
      destruct (new_names_functions _ _ _ Haccs Hnames) as (N1 & N2 & N3).
      pose proof (facts_len v rws columns n accs _ HF) as Hlen. rewrite N3 in Hlen.
      pose proof (facts_apart v rws columns n accs Hap _ HF) as Hnd.
      destruct (pivot_columns_spec ek VNone VStr show ty ps Hps rws columns functions _ Hlen (fs_ne o Ho) Hnd) as (t' & ns & Ht' & Hd & Hnn & HFl & Hid & Hr).
      { by apply list.NoDup_app in Hkeys as (? & _). }
      { by right. }
      { intros ck used ns. by apply batch_distinct. }
      rewrite Ht' in Hrun. injection Hrun as <-. rewrite (facts_col_keys v rws columns n accs Hap _ HF) in HFl, Hid. split; [by exists ns|].
      rewrite Hr. unfold grid_as_columns, agg_columns. rewrite (facts_row_keys v rws columns n accs Hap _ HF), (facts_col_keys v rws columns n accs Hap _ HF).
      apply map_ext_in. intros rk Hrk. apply elem_of_list_In in Hrk. do 2 f_equal. apply map_ext_in. intros ck Hck. apply elem_of_list_In in Hck.
      apply list_eq. intros j. change (map ?f (seq 0 ?b)) with (f <$> seq 0 b). change (map ?f accs) with (f <$> accs). rewrite !list_lookup_fmap.
      destruct (accs !! j) as [a|] eqn:Ea.
      - rewrite lookup_seq_lt by (apply lookup_lt_Some in Ea; lia). cbn. f_equal. by apply (facts_cell v rws columns n accs Hap _ HF).
      - apply lookup_ge_None in Ea. rewrite lookup_seq_ge by lia. done.
    Qed.
  End pivot.
End top.
