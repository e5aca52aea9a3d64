From Coq Require Import String ZifyBool.
From Verif.Spec Require Import PyTexts.
From Verif.Proof Require Import DictLemmas RankProofs NpyProofs InferProofs PyInferProofs PyTextProofs PyKinds PyKinds2 PyKinds3 PyIso PyMoments.
From Verif.Model Require Import PyInfer.
Local Open Scope string_scope.
Local Open Scope list_scope.
Local Open Scope Z_scope.

(** ** Whole numbers *)
Lemma py_int_inv s n : py_int s = Ok n → signed_number n s.
Proof.
  assert (∀ ds n, (if (0 <? zlen ds) && all_digits ds then Ok (digits_value ds) else Err ValueError) = Ok n → number n ds) as Hu.
  { intros ds k. destruct ((0 <? zlen ds) && all_digits ds) eqn:E; [|done]. intros [= <-]. rewrite andb_true_iff in E.
    destruct E as [E1 E2]. split; [intros ->; done|]. split; [by apply all_digits_spec|done]. }
  unfold py_int. destruct s as [|c ds]; [done|]. destruct (Z.eqb_spec c 43) as [->|]; [|destruct (Z.eqb_spec c 45) as [->|]].
  - intros H%Hu. right. exists n, ds. auto.
  - destruct (if (0 <? zlen ds) && all_digits ds then Ok (digits_value ds) else Err ValueError) as [k|] eqn:E; [|done].
    intros [= <-]. apply Hu in E. right. exists k, ds. auto.
  - intros H%Hu. by left.
Qed.
Lemma py_int_signed_number s n : signed_number n s → py_int s = Ok n.
Proof.
  intros [H|(k & ds & (H0 & Hd & Hv) & [[-> ->]|[-> ->]])]; [by apply py_int_number| |].
  - change (43 :: ds) with ([43] ++ ds). rewrite (py_int_signed [43] ds) by auto. rewrite decide_False by done. by rewrite Hv.
  - change (45 :: ds) with ([45] ++ ds). rewrite (py_int_signed [45] ds) by auto. rewrite decide_True by done. by rewrite Hv.
Qed.
Lemma bare_spec s : remove_all 44 (remove_all 32 (remove_all 34 s)) = bare s.
Proof.
  unfold remove_all, bare. rewrite !list_filter_filter. apply list_filter_iff. intros x. tauto.
Qed.
Lemma signed_chars n s : signed_number n s → forallb (λ c, isDigit c || (c =? 43) || (c =? 45)) s = true.
Proof.
  assert (∀ ds, Forall digit ds → forallb (λ c, isDigit c || (c =? 43) || (c =? 45)) ds = true) as Hd.
  { intros ds H. apply forallb_forall. intros c Hc. apply elem_of_list_In in Hc. rewrite list.Forall_forall in H.
    apply H in Hc. apply digit_bool in Hc. by rewrite Hc. }
  intros [(_ & H & _)|(k & ds & (_ & H & _) & [[-> _]|[-> _]])]; cbn [forallb]; try (by rewrite Hd); by apply Hd.
Qed.
Lemma infer_int_iff s n : infer_int s = Ok n ↔ signed_number n (bare s).
Proof.
  unfold infer_int. rewrite bare_spec. split.
  - destruct (forallb _ _); [|done]. apply py_int_inv.
  - intros H. rewrite (signed_chars _ _ H). by apply py_int_signed_number.
Qed.

(** ** Dates *)
Lemma new_date_inv y m d v : new_date y m d = Ok v → v = Ymd y m d ∧ python_date v.
Proof.
  unfold new_date. destruct (_ && _) eqn:E; [|done]. intros [= <-]. rewrite !andb_true_iff in E. split; [done|].
  unfold python_date, valid_ymd. cbn [yy mm dd]. lia.
Qed.
Definition digit_or_n (c : Z) : Prop := digit c ∨ c = 78.
Lemma pattern_n s k : pattern s = replicate k 78 → length s = k ∧ Forall digit_or_n s.
Proof.
  revert k. induction s as [|c s IH]; intros [|k] H; [done|done|done|]. cbn in H. injection H as H1 H2.
  destruct (IH _ H2) as [<- Hf]. split; [done|]. constructor; [|done]. destruct (isDigit c) eqn:E; [left; by apply digit_bool|by right].
Qed.
Lemma pattern_cut s p q : pattern s = p ++ q → ∃ a b, s = a ++ b ∧ pattern a = p ∧ pattern b = q.
Proof. intros H. apply map_eq_app in H as (a & b & -> & <- & <-). by exists a, b. Qed.
Lemma pattern_one s c : pattern s = [c] → c ≠ 78 → s = [c].
Proof.
  destruct s as [|x [|? ?]]; try done. cbn. intros [= H] Hc. destruct (isDigit x); [done|by subst].
Qed.
Lemma py_int_digits s n : Forall digit_or_n s → py_int s = Ok n → number n s.
Proof.
  intros Hf H%py_int_inv. destruct H as [?|(k & ds & _ & [[-> _]|[-> _]])]; [done| |]; exfalso;
  apply list.Forall_cons in Hf as [[Hf|Hf] _]; unfold digit in *; lia.
Qed.

Lemma split_three sep a b c : sep ∉ a → sep ∉ b → sep ∉ c → split_on sep (a ++ [sep] ++ b ++ [sep] ++ c) = [a; b; c].
Proof.
  intros Ha Hb Hc. cbn [app]. rewrite split_on_sep by done. rewrite split_on_sep by done. f_equal. f_equal.
  clear -Hc. induction c as [|x c IH]; [done|]. apply not_elem_of_cons in Hc as [H1 H2]. cbn [split_on].
  destruct (Z.eqb_spec x sep); [congruence|]. by rewrite IH.
Qed.
Lemma date_of_three a b c d : date_of_list [a; b; c] = Ok d → ∃ x y z, a = Ok x ∧ b = Ok y ∧ c = Ok z ∧ new_date x y z = Ok d.
Proof. unfold date_of_list. destruct a, b, c; cbn; try done. eauto 10. Qed.

(** the shape of every pattern *)
Definition format_ok (p : list Z * date_reader) : bool :=
  match p.2 with
  | DateSplit sep reversed =>
      existsb (λ ij, bool_decide (p.1 = (if reversed then replicate ij.2 78 ++ [sep] ++ replicate ij.1 78 ++ [sep] ++ replicate 4 78
                              else replicate 4 78 ++ [sep] ++ replicate ij.1 78 ++ [sep] ++ replicate ij.2 78)))
        [(1%nat, 1%nat); (1%nat, 2%nat); (2%nat, 1%nat); (2%nat, 2%nat)]
      && ((sep =? 32) || (sep =? 45) || (sep =? 46) || (sep =? 47))
  | DateCompact => bool_decide (p.1 = replicate 8 78)
  end.
Lemma formats_ok : forallb format_ok date_formats = true.
Proof. by vm_compute. Qed.
Lemma dget_in {V} (d : list (list Z * V)) k v : dget d k = Some v → In (k, v) d.
Proof.
  induction d as [|[k' v'] d IH]; [done|]. cbn. destruct (decide (k = k')) as [->|]; [intros [= ->]; by left|]. intros Hd. right. auto.
Qed.

Lemma infer_date_inv lib s d : infer_date lib s = Ok d → iso_date lib s = Some d ∨
  iso_date lib s = None ∧ python_date d ∧ ((∃ day_first sep, date_separator sep ∧ brief_date day_first sep d s) ∨ compact_date d s).
Proof.
  unfold infer_date. destruct (iso_date lib s) as [v|] eqn:E; [intros [= ->]; by left|]. intros H. right. split; [done|].
  destruct (dget date_formats (pattern s)) as [f|] eqn:Ef; [|done]. apply dget_in in Ef.
  pose proof formats_ok as F. rewrite forallb_forall in F. apply F in Ef. unfold format_ok in Ef. cbn [fst snd] in Ef.
  destruct f as [sep reversed|].
  - rewrite andb_true_iff in Ef. destruct Ef as [Ef Hsep]. apply existsb_exists in Ef as ([i j] & Hij & Ef).
    apply bool_decide_eq_true in Ef. cbn [fst snd] in Ef.
    assert (date_separator sep) as Hs by (unfold date_separator; lia).
    assert ((i ≤ 2)%nat ∧ (j ≤ 2)%nat) as [Hi Hj] by (destruct Hij as [Hij|[Hij|[Hij|[Hij|[]]]]]; injection Hij as <- <-; lia).
    assert (∀ l, Forall digit_or_n l → sep ∉ l) as Hno.
    { intros l Hl Hin. rewrite list.Forall_forall in Hl. destruct (Hl _ Hin); unfold digit, date_separator in *; lia. }
    assert (sep ≠ 78) as H78 by (unfold date_separator in Hs; lia).
    destruct reversed.
    + apply pattern_cut in Ef as (n & s1 & -> & En & Ef). apply pattern_cut in Ef as (x & s2 & -> & Ex%pattern_one & Ef); [|done].
      apply pattern_cut in Ef as (m & s3 & -> & Em & Ef). apply pattern_cut in Ef as (x' & y & -> & Ex'%pattern_one & Ey); [|done]. subst x x'.
      apply pattern_n in En as [Ln Dn], Em as [Lm Dm], Ey as [Ly Dy].
      unfold read_date in H. rewrite split_three in H by auto. cbn [map rev app] in H.
      apply date_of_three in H as (a & b & c & Ha & Hb & Hc & Hd). apply new_date_inv in Hd as [-> Hd].
      apply py_int_digits in Ha, Hb, Hc; try done. split; [done|]. left. exists true, sep. split; [done|].
      exists y, m, n. cbn [yy mm dd]. rewrite Ln, Lm. split_and!; try done; lia.
    + apply pattern_cut in Ef as (y & s1 & -> & Ey & Ef). apply pattern_cut in Ef as (x & s2 & -> & Ex%pattern_one & Ef); [|done].
      apply pattern_cut in Ef as (m & s3 & -> & Em & Ef). apply pattern_cut in Ef as (x' & n & -> & Ex'%pattern_one & En); [|done]. subst x x'.
      apply pattern_n in En as [Ln Dn], Em as [Lm Dm], Ey as [Ly Dy].
      unfold read_date in H. rewrite split_three in H by auto. cbn [map rev app] in H.
      apply date_of_three in H as (a & b & c & Ha & Hb & Hc & Hd). apply new_date_inv in Hd as [-> Hd].
      apply py_int_digits in Ha, Hb, Hc; try done. split; [done|]. left. exists false, sep. split; [done|].
      exists y, m, n. cbn [yy mm dd]. rewrite Ln, Lm. split_and!; try done; lia.
  - apply bool_decide_eq_true in Ef. change (replicate 8 78) with (replicate 4 78 ++ replicate 2 78 ++ replicate 2 78) in Ef.
    apply pattern_cut in Ef as (y & s1 & -> & Ey & Ef). apply pattern_cut in Ef as (m & n & -> & Em & En).
    apply pattern_n in En as [Ln Dn], Em as [Lm Dm], Ey as [Ly Dy]. unfold read_date in H.
    assert (sub 0 4 (y ++ m ++ n) = y ∧ sub 4 6 (y ++ m ++ n) = m ∧ drop 6 (y ++ m ++ n) = n) as (E1 & E2 & E3).
    { destruct y as [|? [|? [|? [|? [|? ?]]]]]; try done. destruct m as [|? [|? [|? ?]]]; done. }
    rewrite E1, E2, E3 in H.
    apply date_of_three in H as (a & b & c & Ha & Hb & Hc & Hd). apply new_date_inv in Hd as [-> Hd].
    apply py_int_digits in Ha, Hb, Hc; try done. split; [done|]. right. by exists y, m, n.
Qed.
Lemma infer_date_iff lib s d : infer_date lib s = Ok d ↔ iso_date lib s = Some d ∨
  iso_date lib s = None ∧ python_date d ∧ ((∃ day_first sep, date_separator sep ∧ brief_date day_first sep d s) ∨ compact_date d s).
Proof.
  split; [apply infer_date_inv|]. unfold infer_date. intros [->|(-> & Hd & [(day_first & sep & Hs & Hb)|(y & m & n & Hy & Hm & Hn & ->)])]; [done| |].
  - destruct (brief_date_read day_first sep d s Hb Hs Hd) as [-> H]. done.
  - pose proof Hy as ((_ & Dy & _) & Ly). pose proof Hm as ((_ & Dm & _) & Lm). pose proof Hn as ((_ & Dn & _) & Ln).
    rewrite pattern_digits by (rewrite !list.Forall_app; done). rewrite !app_length, Ly, Lm, Ln.
    change (dget date_formats (replicate (4 + (2 + 2)) 78)) with (Some DateCompact). cbn [read_date].
    assert (sub 0 4 (y ++ m ++ n) = y ∧ sub 4 6 (y ++ m ++ n) = m ∧ drop 6 (y ++ m ++ n) = n) as (-> & -> & ->).
    { destruct y as [|? [|? [|? [|? [|? ?]]]]]; try done. destruct m as [|? [|? [|? ?]]]; done. }
    rewrite (py_int_number (yy d) y), (py_int_number (mm d) m), (py_int_number (dd d) n) by (first [apply Hy|apply Hm|apply Hn]).
    cbn. by apply new_date_ok.
Qed.

(** ** Columns *)
Section Lib.
  Context (lib : py_lib) (law : iso_law (iso_date lib) (iso_datetime lib) (iso_time lib)).


  Lemma first_new T v w : T ∈ types → kind_only lib T v w → first_type lib v types = Ok (Some (T, w)).
  Proof.
    intros [i Hi]%elem_of_list_lookup [Hw Hb]. apply (first_type_at lib v types i T w Hi Hw).
    intros j t Hj Ht. apply Hb. by exists j, i.
  Qed.
  Lemma first_word v w ts : kind_only lib KStr v w → KStr ∈ ts → (∀ t, t ∈ ts → t ∈ types) →
    first_type lib v ts = Ok (Some (KStr, w)).
  Proof.
    intros [Hw Hb]. induction ts as [|t ts IH]; intros Hin Hsub; [by apply elem_of_nil in Hin|]. cbn [first_type].
    destruct (decide (t = KStr)) as [->|Hne]; [by rewrite Hw|].
    assert (earlier KStr t) as He.
    { assert (t ∈ types) as [i Hi]%elem_of_list_lookup by (apply Hsub; left). exists i, 6%nat. split; [done|]. split; [done|].
      pose proof (lookup_lt_Some _ _ _ Hi) as Hl. cbn in Hl. destruct (decide (i = 6%nat)) as [->|]; [cbn in Hi; by injection Hi as <-|lia]. }
    destruct (Hb t He) as (e & -> & [-> | ->]); (apply IH; [apply elem_of_cons in Hin as [?|?]; [congruence|done]|intros t' Ht'; apply Hsub; by right]).
  Qed.
  Definition one_then_words (T : kind) : bool :=
    match prank_match (prank_new types) T with
    | Ok r1 => bool_decide (KStr ∈ pr_list r1) && bool_decide (Forall (λ t, t ∈ types) (pr_list r1)) &&
        match prank_match r1 KStr with
        | Ok r2 => bool_decide (KStr ∈ pr_list r2) && bool_decide (Forall (λ t, t ∈ types) (pr_list r2)) &&
            match prank_match r2 KStr with
            | Ok r3 => bool_decide (head (pr_list r3) = Some KStr) && match prank_match r3 KStr with Ok _ => true | _ => false end
            | _ => false
            end
        | _ => false
        end
    | _ => false
    end.
  Lemma one_then_words_all : forallb (λ T, bool_decide (T = KStr) || one_then_words T) types = true.
  Proof. by vm_compute. Qed.

  Lemma guess_order T s w a b : plain_text (float_read lib) (float_format lib) T s w → T ≠ KStr →
    plain_text (float_read lib) (float_format lib) KStr a (CStr a) → plain_text (float_read lib) (float_format lib) KStr b (CStr b) →
    guess lib [CStr s; CStr a; CStr b; CStr s] = Ok [w; CStr a; CStr b; CStr s].
  Proof using law.
    intros Hs HT Ha Hb. apply (plain_kind lib law) in Hs as [HT' Hs]. apply (plain_kind lib law) in Ha as [_ Ha]. apply (plain_kind lib law) in Hb as [_ Hb].
    pose proof one_then_words_all as C. rewrite forallb_forall in C. specialize (C T (proj1 (elem_of_list_In _ _) HT')).
    rewrite bool_decide_eq_false_2 in C by done. cbn [orb] in C. unfold one_then_words in C.
    destruct (prank_match (prank_new types) T) as [r1|] eqn:E1; [|done].
    rewrite !andb_true_iff, !bool_decide_eq_true in C. destruct C as [[C1 C2] C].
    destruct (prank_match r1 KStr) as [r2|] eqn:E2; [|done]. rewrite !andb_true_iff, !bool_decide_eq_true in C. destruct C as [[C3 C4] C].
    destruct (prank_match r2 KStr) as [r3|] eqn:E3; [|done]. rewrite andb_true_iff, bool_decide_eq_true in C. destruct C as [C5 C].
    destruct (prank_match r3 KStr) as [r4|] eqn:E4; [|done].
    rewrite list.Forall_forall in C2, C4.
    unfold guess. cbn [guess_loop]. change (pr_list (prank_new types)) with types. rewrite (first_new T _ w) by done. cbn [res_bind]. rewrite E1. cbn [res_bind].
    rewrite (first_word _ (CStr a)) by done. cbn [res_bind]. rewrite E2. cbn [res_bind].
    rewrite (first_word _ (CStr b)) by done. cbn [res_bind]. rewrite E3. cbn [res_bind].
    destruct (pr_list r3) as [|t ts]; [done|]. injection C5 as ->. cbn [first_type infer infer_value res_bind]. rewrite E4. done.
  Qed.

  (** dates become dates with a time *)
  Lemma guess_days ds : guess lib (map CDate ds) = Ok (map (λ d, CDateTime d 0) ds).
  Proof.
    apply (guess_uniform lib KDateTime); [apply (bool_decide_unpack _); vm_compute; exact I|].
    induction ds as [|d ds IH]; constructor; [|done]. right. split; [done|].
    intros t Ht. apply earlier_kinds in Ht. by apply elem_of_nil in Ht.
  Qed.
  Lemma guess_iso vs : Forall (λ p, iso_day p.1 p.2 ∧ python_date p.1) vs →
    guess lib (map (λ p, CStr p.2) vs) = Ok (map (λ p, CDateTime p.1 0) vs).
  Proof using law.
    intros H. apply (guess_plain lib law KDateTime); [|done]. induction H as [|[d s] vs [H1 H2] _ IH]; constructor; [|exact IH].
    right. exists s. split; [done|]. exists d, 0, s, []. rewrite app_nil_r. split_and!; try done. by left.
  Qed.

  (** exceptions which are not caught *)
  Lemma guess_float_raises x e vs : float_int lib x = Err e → e ≠ ValueError → e ≠ TypeError → guess lib (CFloat x :: vs) = Err e.
  Proof.
    intros H H1 H2. unfold guess. cbn [guess_loop]. change (pr_list (prank_new types)) with types. cbn [first_type types infer infer_value].
    rewrite H. cbn [res_bind]. destruct e; done.
  Qed.
  Lemma guess_text_raises e vs : odd_micro lib (bytes_of "1e999") = Err e → e ≠ ValueError → e ≠ TypeError →
    guess lib (CStr (bytes_of "2020/01/31 12:00:00.1e999") :: vs) = Err e.
  Proof using law.
    intros H H1 H2. set (odd_moment := bytes_of "2020/01/31 12:00:00.1e999").
    unfold guess. cbn [guess_loop]. change (pr_list (prank_new types)) with types. cbn [first_type types].
    rewrite infer_plain; [|apply (bool_decide_unpack _); vm_compute; exact I|done]. cbn [infer_value].
    assert (infer_datetime lib odd_moment = Err e) as ->.
    { unfold infer_datetime. destruct (iso_reject lib law odd_moment) as [_ ->].
      { right. right. exists 47. split; [done|]. unfold digit. lia. }
      cbv zeta. match goal with |- context [dget datetime_formats ?p] => let q := eval vm_compute in p in change p with q end.
      match goal with |- context [dget datetime_formats ?p] => let q := eval vm_compute in (dget datetime_formats p) in change (dget datetime_formats p) with q end.
      cbn iota. unfold pattern_to_datetime. cbn [Z.eqb]. cbn iota.
      match goal with |- context [fix_fraction lib ?p] => let q := eval vm_compute in p in change p with q end.
      unfold fix_fraction. match goal with |- context [if ?b then res_map _ _ else _] => let q := eval vm_compute in b in change b with q end.
      cbn iota. match goal with |- context [all_digits ?p] => let q := eval vm_compute in p in change p with q end.
      match goal with |- context [all_digits ?p] => let q := eval vm_compute in (all_digits p) in change (all_digits p) with q end. cbn iota.
      match goal with |- context [odd_micro lib ?p] => change p with (bytes_of "1e999") end. rewrite H. done. }
    cbn [res_map res_bind]. by destruct e.
  Qed.

  (** six decimals of a second *)
  Lemma micro_lost : infer_datetime lib (bytes_of "31/12/1999 23:59:59.000251") = Ok (Ymd 1999 12 31, 86399000250).
  Proof using law.
    set (s := bytes_of "31/12/1999 23:59:59.000251"). unfold infer_datetime.
    destruct (iso_reject lib law s) as [_ ->].
    { left. intros H. rewrite list.Forall_forall in H. assert (digit 47) by (apply H; apply (bool_decide_unpack _); vm_compute; exact I). unfold digit in *. lia. }
    cbv zeta. match goal with |- context [dget datetime_formats ?p] => let q := eval vm_compute in (dget datetime_formats p) in change (dget datetime_formats p) with q end.
    cbn iota. unfold pattern_to_datetime. cbn [Z.eqb]. cbn iota.
    match goal with |- context [fix_fraction lib ?p] => let q := eval vm_compute in p in change p with q end.
    unfold fix_fraction. match goal with |- context [if ?b then res_map _ _ else _] => let q := eval vm_compute in b in change b with q end.
    cbn iota. match goal with |- context [if ?b then Ok _ else odd_micro _ _] => let q := eval vm_compute in b in change b with q end. cbn iota.
    cbn [res_map res_bind].
    match goal with |- context [iso_datetime lib ?p] => let q := eval vm_compute in p in change p with q end.
    pose proof (law_moment _ _ _ law (Ymd 1999 12 31) (bytes_of "1999-12-31") 84 (((23 * 60 + 59) * 60 + 59) * 1000000 + 250)
      (bytes_of "23" ++ [58] ++ bytes_of "59" ++ [58] ++ bytes_of "59" ++ [46] ++ bytes_of "000250")) as L.
    assert (∀ n ds, ds ≠ [] → all_digits ds = true → digits_value ds = n → number_of (length ds) n ds) as N.
    { intros n ds H1 H2 H3. split; [|done]. split; [done|]. split; [by apply all_digits_spec|done]. }
    match type of L with _ → _ → _ → _ → iso_datetime _ ?p = _ => let q := eval vm_compute in p in change p with q in L end.
    rewrite L; [done| | |by right|].
    - exists (bytes_of "1999"), (bytes_of "12"), (bytes_of "31"). split_and!; try done; by apply N.
    - unfold python_date, valid_ymd. cbn. lia.
    - split; [|done]. apply clock_micro; by apply N.
  Qed.

  (** a comma before decimals *)
  Lemma comma_lost : guess lib [CStr (bytes_of "1,5")] = Ok [CInt 15].
  Proof using law.
    apply (guess_uniform lib KInt); [apply (bool_decide_unpack _); vm_compute; exact I|]. constructor; [|constructor]. right.
    apply kind_only_text; [apply (bool_decide_unpack _); vm_compute; exact I|done|done|].
    destruct (iso_reject lib law (bytes_of "1,5")) as [R1 R2]; [right; left; by vm_compute|].
    intros t Ht. exists ValueError. split; [|by left]. apply earlier_kinds in Ht.
    repeat (apply elem_of_cons in Ht as [->|Ht]); [..|by apply elem_of_nil in Ht]; cbn [infer_value].
    - rewrite reject_datetime; [done|done|by vm_compute].
    - rewrite reject_date; [done|done|by vm_compute].
    - done.
  Qed.
End Lib.
