(** C99: rows of pages. *)
From Coq Require Import String.
From Verif.Model Require Import NpySlice.
From Verif.Proof Require Import DictLemmas PicklePageProofs NpyProofs.
Local Open Scope Z_scope.

(** * Positions *)
Lemma at_index_ok {A} (l : list A) i x : at_position l i x ↔ at_index l i = Ok x.
Proof.
  unfold at_position, at_index. destruct (Z.ltb_spec i 0).
  - split; [lia|done].
  - destruct (l !! Z.to_nat i) eqn:E; split; try done; [intros [_ [= <-]]; done|intros [= <-]; done|by intros [? ?]].
Qed.

Lemma at_index_err {A} (l : list A) i : ¬ (0 <= i < zlen l) → at_index l i = Err IndexError.
Proof.
  intros H. unfold at_index. destruct (Z.ltb_spec i 0); [done|].
  by rewrite lookup_ge_None_2 by lia.
Qed.

Lemma at_index_range {A} (l : list A) i : 0 <= i < zlen l → ∃ x, at_index l i = Ok x.
Proof.
  intros H. unfold at_index. rewrite (proj2 (Z.ltb_ge _ _)) by lia.
  destruct (lookup_lt_is_Some_2 l (Z.to_nat i)) as [x ->]; [lia|by exists x].
Qed.

Lemma collect_ok {A} (f : Z → res A) idx l : Forall2 (λ i x, f i = Ok x) idx l → collect f idx = Ok l.
Proof. induction 1 as [|i x idx l H _ IH]; [done|]. cbn [collect]. by rewrite H, IH. Qed.

Lemma collect_picks {A} (buf : list A) idx l : picks buf idx l → collect (at_index buf) idx = Ok l.
Proof. intros H. apply collect_ok. eapply Forall2_impl; [exact H|]. intros. by apply at_index_ok. Qed.

Lemma collect_err {A} (f : Z → res A) idx i :
  (∀ j e, f j = Err e → e = IndexError) → i ∈ idx → (∃ e, f i = Err e) → collect f idx = Err IndexError.
Proof.
  intros Hf Hi [e He]. induction Hi as [i idx|i j idx Hi IH]; cbn [collect].
  - rewrite He. by rewrite (Hf _ _ He).
  - destruct (f j) eqn:E; cbn [res_bind]; [by rewrite IH by done|]. by rewrite (Hf _ _ E).
Qed.

Lemma at_index_only {A} (l : list A) j e : at_index l j = Err e → e = IndexError.
Proof. unfold at_index. destruct (j <? 0), (l !! Z.to_nat j); congruence. Qed.

Lemma picks_map {A B} (g : A → B) buf idx cs :
  picks (map g buf) idx cs → ∃ l, picks buf idx l ∧ cs = map g l.
Proof.
  induction 1 as [|i c idx cs [H0 H] _ IH]; [exists []; split; [constructor|done]|].
  destruct IH as (l & Hl & ->). change (map g buf) with (g <$> buf) in H. rewrite list_lookup_fmap in H.
  destruct (buf !! Z.to_nat i) as [x|] eqn:E; [|done]. injection H as <-.
  exists (x :: l). split; [|done]. constructor; [by split|done].
Qed.

Lemma picks_map_r {A B} (g : A → B) buf idx l : picks buf idx l → picks (map g buf) idx (map g l).
Proof.
  induction 1 as [|i c idx cs [H0 H] _ IH]; [constructor|]. cbn [map]. constructor; [|done].
  split; [done|]. change (map g buf) with (g <$> buf). by rewrite list_lookup_fmap, H.
Qed.

Lemma picks_length {A} (buf : list A) idx l : picks buf idx l → zlen l = zlen idx.
Proof. intros H. apply Forall2_length in H. lia. Qed.

Lemma picks_Forall {A} (P : A → Prop) buf idx l : Forall P buf → picks buf idx l → Forall P l.
Proof.
  intros HP. induction 1 as [|i c idx cs [H0 H] _ IH]; constructor; [|done].
  exact (proj1 (list.Forall_lookup P buf) HP _ _ H).
Qed.

(** * Texts *)
Lemma chunked {A} k m (buf : list A) : List.length buf = (m * k)%nat →
  ∃ els, buf = concat els ∧ List.length els = m ∧ Forall (λ e, List.length e = k) els.
Proof.
  revert buf. induction m as [|m IH]; intros buf H.
  - destruct buf; [|done]. by exists [].
  - destruct (IH (drop k buf)) as (els & H1 & H2 & H3); [rewrite drop_length; lia|].
    exists (take k buf :: els). cbn [concat List.length]. rewrite <- H1, take_drop.
    split; [done|]. split; [by rewrite H2|]. constructor; [|done]. rewrite take_length. lia.
Qed.

Lemma drop_concat {A} k (els : list (list A)) j : Forall (λ e, List.length e = k) els →
  drop (j * k) (concat els) = concat (drop j els).
Proof.
  revert j. induction els as [|e els IH]; intros j H; [cbn [concat]; by rewrite !drop_nil|].
  apply list.Forall_cons in H as [He H]. destruct j as [|j]; [done|].
  cbn [concat drop]. replace (S j * k)%nat with (List.length e + j * k)%nat by lia.
  rewrite drop_app_ge by lia. rewrite <- (IH j H). f_equal. lia.
Qed.

Lemma chunk_at k (els : list (list Z)) j e : (0 < k)%nat → Forall (λ e, List.length e = k) els →
  at_position els j e → unicode_chunk (concat els) k j = Ok e.
Proof.
  intros Hk H [Hj He]. unfold unicode_chunk.
  pose proof (lookup_lt_Some _ _ _ He) as Hlt.
  replace (Z.to_nat (j * Z.of_nat k)) with (Z.to_nat j * k)%nat by nia.
  rewrite drop_concat by done.
  assert (List.length e = k) as Hl by exact (proj1 (list.Forall_lookup _ _) H _ _ He).
  destruct (at_index_range (concat els) (j * Z.of_nat k)) as [x ->].
  { rewrite (concat_length_eq els k) by done. nia. }
  cbn [res_map]. rewrite (drop_S els e (Z.to_nat j)) by done. cbn [concat]. by rewrite take_app_alt.
Qed.

Lemma chunk_err k (els : list (list Z)) j : (0 < k)%nat → Forall (λ e, List.length e = k) els →
  ¬ (0 <= j < zlen els) → unicode_chunk (concat els) k j = Err IndexError.
Proof.
  intros Hk H Hj. unfold unicode_chunk. rewrite at_index_err; [done|].
  rewrite (concat_length_eq els k) by done. nia.
Qed.

Lemma chunk_only buf k j e : unicode_chunk buf k j = Err e → e = IndexError.
Proof. unfold unicode_chunk. destruct (at_index _ _) eqn:E; [done|]. intros [= <-]. by eapply at_index_only. Qed.

(** the characters before the first NUL *)
Fixpoint before_nul (e : list Z) : list Z :=
  match e with [] => [] | c :: e => if c =? 0 then [] else c :: before_nul e end.

Lemma runes_before_ok e rest : runes_before_nul (List.length e) (e ++ rest) = Ok (before_nul e).
Proof.
  induction e as [|c e IH]; [done|]. cbn [List.length runes_before_nul app before_nul].
  destruct (c =? 0); [done|]. by rewrite IH.
Qed.

Lemma before_nul_none e : 0 ∉ e → before_nul e = e.
Proof.
  induction e as [|c e IH]; [done|]. intros [H1 H2]%not_elem_of_cons. cbn [before_nul].
  rewrite (proj2 (Z.eqb_neq c 0)) by congruence. by rewrite IH.
Qed.

Lemma before_nul_until e : 0 ∉ until_last e → before_nul e = until_last e.
Proof.
  induction e as [|c e IH]; [done|]. cbn [until_last before_nul]. intros H.
  destruct (until_last e) as [|d l] eqn:E.
  - destruct (Z.eqb_spec c 0); [done|]. rewrite IH by set_solver. done.
  - apply not_elem_of_cons in H as [H1 H2]. rewrite (proj2 (Z.eqb_neq c 0)) by congruence.
    by rewrite IH.
Qed.

Lemma utf8_nul cs : 0 ∉ utf8 cs → 0 ∉ cs.
Proof.
  induction cs as [|c cs IH]; [done|]. rewrite utf8_cons. intros H.
  apply not_elem_of_app in H as [H1 H2]. apply not_elem_of_cons. split; [|by apply IH].
  intros <-. apply H1. by left.
Qed.

Lemma before_nul_text e : 0 ∉ rune_text e → utf8 (before_nul e) = rune_text e.
Proof.
  unfold rune_text. destruct (Z.eqb_spec (List.last e 0) 0) as [E|E]; cbn [negb].
  - destruct (Z.eqb_spec (List.hd 0 e) 0) as [E'|E'].
    + intros _. destruct e as [|c e]; [done|]. cbn [List.hd] in E'. by subst c.
    + intros H. by rewrite before_nul_until by (by apply utf8_nul).
  - intros H. by rewrite before_nul_none by (by apply utf8_nul).
Qed.

(** the elements of a page of texts *)
Lemma sized_texts n buf k : sized (PUnicode n buf k) →
  ∃ els, buf = concat els ∧ zlen els = n ∧ Forall (λ e, List.length e = k) els
    ∧ texts (List.length buf) k buf = map rune_text els.
Proof.
  intros (Hk & Hn & Hl). destruct (chunked k (Z.to_nat n) buf Hl) as (els & -> & H1 & H2).
  exists els. split; [done|]. split; [lia|]. split; [done|]. apply texts_ok; [done|done|].
  rewrite (concat_length_eq els k) by done. nia.
Qed.

(** * Kinds *)
Lemma count_kinds_dict buf : cdict (count_kinds buf) (map kind_of buf).
Proof. exact (counter_fold kind_of buf [] [] cdict_nil). Qed.

Lemma kind_count_cnt buf k : kind_count buf k = cnt k (map kind_of buf).
Proof.
  induction buf as [|c buf IH]; [done|]. cbn [map]. rewrite cnt_cons, <- IH.
  unfold kind_count, count_if. rewrite filter_cons. case_decide; cbn [List.length]; lia.
Qed.

Lemma one_kind buf k n : count_kinds buf = [(k, n)] → buf ≠ [] ∧ Forall (λ c, kind_of c = k) buf.
Proof.
  intros E. split; [by intros ->|]. apply list.Forall_forall. intros c Hc.
  destruct (count_kinds_dict buf) as [_ H]. rewrite E in H. specialize (H (kind_of c)).
  rewrite decide_True in H.
  - cbn in H. case_decide; [done|]. discriminate H.
  - apply cnt_elem. by apply (elem_of_list_fmap_1 kind_of).
Qed.

Lemma count_kinds_one buf k : buf ≠ [] → Forall (λ c, kind_of c = k) buf → ∃ n, count_kinds buf = [(k, n)].
Proof.
  intros Hne H. destruct (count_kinds_dict buf) as [Hnd Hd].
  assert (∀ k' n, (k', n) ∈ count_kinds buf → k' = k) as Hall.
  { intros k' n Hin. apply dget_Some in Hin; [|done]. rewrite Hd in Hin. case_decide as Hp; [|done].
    destruct (decide (k' = k)) as [|Hk]; [done|]. exfalso.
    rewrite cnt_zero in Hp; [lia|]. intros (c & -> & Hc)%elem_of_list_fmap.
    apply Hk. by apply (proj1 (list.Forall_forall _ _) H). }
  destruct (count_kinds buf) as [|[k1 n1] l] eqn:E.
  - destruct buf as [|c buf]; [done|]. specialize (Hd (kind_of c)). rewrite decide_True in Hd; [done|].
    apply cnt_elem. by left.
  - rewrite (Hall k1 n1) in E |- * by (by left). exists n1. f_equal. destruct l as [|[k2 n2] l]; [done|].
    exfalso. cbn in Hnd. apply list.NoDup_cons in Hnd as [Hni _]. apply Hni.
    rewrite (Hall k1 n1) by (by left). rewrite (Hall k2 n2) by (by right; left). by left.
Qed.

Lemma kind_count_all buf k : Forall (λ c, kind_of c = k) buf →
  ∀ k', kind_count buf k' = if decide (k' = k) then zlen buf else 0.
Proof.
  intros H k'. induction H as [|c buf Hc _ IH]; [by case_decide|].
  rewrite kind_count_cnt in *. cbn [map]. rewrite cnt_cons, IH, Hc. cbn [List.length].
  repeat case_decide; try congruence; lia.
Qed.

Lemma types_single (k : kind) n k' : dget_or [(k, n)] k' 0 = if decide (k' = k) then n else 0.
Proof. unfold dget_or. cbn. by case_decide. Qed.

(** * Texts to arrays *)
Lemma max_len_fold arr v : fold_left (λ v s, Z.max v (zlen (toRunes s))) arr v
  = Z.max v (fold_left (λ v s, Z.max v (zlen (toRunes s))) arr v)
  ∧ Forall (λ s, zlen (toRunes s) <= fold_left (λ v s, Z.max v (zlen (toRunes s))) arr v) arr.
Proof.
  revert v. induction arr as [|s arr IH]; intros v; cbn [fold_left]; [split; [lia|constructor]|].
  destruct (IH (Z.max v (zlen (toRunes s)))) as [H1 H2]. split; [lia|]. constructor; [lia|done].
Qed.

Definition kept (t : list Z) (cs : list Z) : Prop :=
  t = utf8 cs ∧ Forall code_point cs ∧ head cs ≠ Some 0 ∧ stdpp.list.last cs ≠ Some 0.

Lemma convert_ok checks m ts css : Forall2 kept ts css → (checks = true → Forall (λ t, t ≠ []) ts) →
  convertSeqStrToSeqRune checks m ts = Ok (concat (map (λ cs, cs ++ repeat 0 (Z.to_nat m - List.length cs)) css)).
Proof.
  induction 1 as [|t cs ts css (-> & Hc & Hh & Hl) _ IH]; intros Hne; [done|].
  cbn [convertSeqStrToSeqRune map concat]. unfold padded_runes. rewrite toRunes_utf8 by done.
  destruct cs as [|c cs].
  - destruct checks.
    { exfalso. specialize (Hne eq_refl). apply list.Forall_cons in Hne as [Hne _]. by apply Hne. }
    cbn [res_bind]. rewrite IH by done. cbn [res_map List.length app]. by rewrite Nat.sub_0_r.
  - cbn [res_bind]. rewrite IH; [done|]. intros E. specialize (Hne E). by apply list.Forall_cons in Hne as [_ ?].
Qed.

Lemma newUnicode_ok checks ts css : Forall2 kept ts css → (checks = true → Forall (λ t, t ≠ []) ts) →
  ∃ k, newUnicode checks ts
    = Ok (PUnicode (zlen ts) (concat (map (λ cs, cs ++ repeat 0 (k - List.length cs)) css)) k)
    ∧ (1 <= k)%nat ∧ Forall (λ cs, (List.length cs <= k)%nat) css
    ∧ (k = 1 ∨ ∃ cs, cs ∈ css ∧ k = List.length cs)%nat.
Proof.
  intros H Hne. exists (Z.to_nat (maxStringLen ts)). unfold newUnicode.
  rewrite (convert_ok checks _ ts css) by done. cbn [res_map]. split; [done|].
  unfold maxStringLen. destruct (max_len_fold ts 1) as [H1 H2]. split; [lia|]. split.
  - remember (fold_left _ ts 1) as m eqn:Em. clear Em Hne H1.
    induction H as [|t cs ts css (-> & Hc & _) _ IH]; constructor.
    + apply list.Forall_cons in H2 as [H2 _]. rewrite toRunes_utf8 in H2 by done. lia.
    + apply IH. by apply list.Forall_cons in H2 as [_ ?].
  - clear -H. assert (∀ v, fold_left (λ v s, Z.max v (zlen (toRunes s))) ts v = v
      ∨ ∃ cs, cs ∈ css ∧ fold_left (λ v s, Z.max v (zlen (toRunes s))) ts v = zlen cs) as Hv.
    { induction H as [|t cs ts css (-> & Hc & _) _ IH]; intros v; [by left|]. cbn [fold_left].
      rewrite toRunes_utf8 by done. destruct (IH (Z.max v (zlen cs))) as [E|(cs' & Hin & E)].
      - destruct (Z.max_spec v (zlen cs)) as [[_ E']|[_ E']]; rewrite E' in E at 2; [|by left].
        right. exists cs. split; [by left|done].
      - right. exists cs'. split; [by right|done]. }
    destruct (Hv 1) as [->|(cs & Hin & ->)]; [by left|]. right. exists cs. split; [done|lia].
Qed.

Lemma kept_texts k css : Forall (λ cs, (List.length cs <= k)%nat) css → (0 < k)%nat →
  Forall (λ cs, head cs ≠ Some 0 ∧ stdpp.list.last cs ≠ Some 0) css →
  let buf := concat (map (λ cs, cs ++ repeat 0 (k - List.length cs)) css) in
  texts (List.length buf) k buf = map utf8 css.
Proof.
  intros Hl Hk Hn buf. unfold buf.
  assert (Forall (λ e, List.length e = k) (map (λ cs, cs ++ repeat 0 (k - List.length cs)) css)) as Hall.
  { apply list.Forall_fmap. eapply list.Forall_impl; [exact Hl|]. intros cs Hcs. cbv beta in Hcs.
    unfold compose. rewrite app_length, repeat_length. lia. }
  rewrite texts_ok; [|done|done|rewrite (concat_length_eq _ k) by done; nia].
  rewrite map_map. apply map_ext_in. intros cs Hin. apply elem_of_list_In in Hin.
  destruct (proj1 (list.Forall_forall _ _) Hn _ Hin) as [Hh Hla]. by apply rune_text_ok.
Qed.
