(** C99: rows of page files. *)
From Coq Require Import String.
From Verif.Model Require Import NpySlice.
From Verif.Proof Require Import DictLemmas PicklePageProofs NpyProofs NpySliceProofs NpySliceFinal.
Local Open Scope Z_scope.

(** * What is read *)
Lemma bind_inv {A B} (r : res A) (f : A → res B) y : res_bind r f = Ok y → ∃ x, r = Ok x ∧ f x = Ok y.
Proof. destruct r as [x|e]; [|done]. intros H. by exists x. Qed.
Lemma map_inv {A B} (r : res A) (f : A → B) y : res_map f r = Ok y → ∃ x, r = Ok x ∧ y = f x.
Proof. destruct r as [x|e]; [|done]. intros [= <-]. by exists x. Qed.

(** texts have at least one character's room *)
Definition good_descr (d : descr) : Prop := d.1.2 = D_UNICODE → 0 < d.2.

Lemma type_of_good e s d : type_of e s = Ok d → good_descr d.
Proof.
  unfold type_of. destruct s as [|ty rest]; [done|].
  destruct (ty =? 79). { case_decide; [|done]. by intros [= <-]. }
  destruct (ty =? 77).
  { repeat (match goal with |- context [match ?x with _ => _ end] => destruct x; try done end);
      try (intros [= <-]; done). }
  destruct (ty =? 98).
  { intros (size & _ & H)%bind_inv. destruct (size =? 1); [|done]. injection H as <-. done. }
  destruct (ty =? 105). { intros (size & _ & ->)%map_inv. done. }
  destruct (ty =? 102). { intros (size & _ & ->)%map_inv. done. }
  destruct (ty =? 85); [|done].
  intros (size & _ & H)%bind_inv. destruct (Z.leb_spec size 0); [done|]. injection H as <-. by intros _.
Qed.

Lemma consumeDescr_good h d h' : consumeDescr h = Ok (d, h') → good_descr d.
Proof.
  unfold consumeDescr. intros ([s h1] & _ & H)%bind_inv. destruct s as [|c body]; [done|].
  destruct ((c =? 124) || (c =? 60)).
  { apply map_inv in H as (t & H & E). injection E as -> _. by eapply type_of_good. }
  destruct (c =? 62).
  { apply map_inv in H as (t & H & E). injection E as -> _. by eapply type_of_good. }
  case_bool_decide; [|done].
  apply map_inv in H as (t & H & E). injection E as -> _. by eapply type_of_good.
Qed.

Lemma entries_good n h d o s r : (∀ x, d = Some x → good_descr x) → entries n h d o s = Ok r → good_descr r.1.1.
Proof.
  revert h d o s. induction n as [|n IH]; intros h d o s Hd; cbn [entries].
  - destruct d as [x|], o, s; try done. intros [= <-]. by apply Hd.
  - intros ([name h1] & _ & H)%bind_inv. case_decide.
    { apply bind_inv in H as ([d' h2] & Ha & Hb). eapply IH, Hb. intros x [= <-]. by eapply consumeDescr_good. }
    case_decide.
    { apply bind_inv in H as ([o' h2] & Ha & Hb). by eapply IH, Hb. }
    case_decide; [|done].
    apply bind_inv in H as ([s' h2] & Ha & Hb). by eapply IH, Hb.
Qed.

Lemma info_good bs d n rest : readPageInfo bs = Ok (d, n, rest) → good_descr d.
Proof.
  unfold readPageInfo.
  intros (b1 & _ & H)%bind_inv. apply bind_inv in H as (b2 & _ & H). apply bind_inv in H as (b3 & _ & H).
  apply bind_inv in H as ([hs b4] & _ & H). apply bind_inv in H as ([hd b5] & _ & H).
  apply bind_inv in H as ([[d' o] sh] & Hp & H). destruct o; [done|].
  destruct sh as [|m [|? ?]]; try done. injection H as <- _ _.
  unfold parseHeader in Hp. destruct (split_at 123 hd) as [[? h]|]; [|done].
  by apply (entries_good 3 h None None None) in Hp.
Qed.

Lemma words_length k n bs l : read_words k n bs = Ok l → List.length l = n.
Proof.
  revert bs l. induction n as [|n IH]; intros bs l; cbn [read_words]; [by intros [= <-]|].
  intros ([w b] & _ & H)%bind_inv. apply map_inv in H as (l' & H & ->). cbn. f_equal. by eapply IH.
Qed.

Lemma buffer_length k n bs l : readPrimitiveBuffer k n bs = Ok l → 0 <= n ∧ zlen l = n.
Proof.
  unfold readPrimitiveBuffer. destruct (Z.ltb_spec n 0); [done|]. intros E%words_length. lia.
Qed.

Section files.
  Context (checks : bool) (scalar : list Z → list Z → res cell) (widen : Z → Z).

  Lemma read_sized file p : readNumpy checks scalar file = Ok p →
    sized p ∧ getPageLen file = Ok (page_len p).
  Proof using.
    unfold readNumpy, getPageLen. intros ([[[[e d] sz] n] rest] & Hi & H)%bind_inv.
    pose proof (info_good _ _ _ _ Hi) as Hg. cbv [good_descr fst snd] in Hg. rewrite Hi. cbn [res_map].
    destruct d.
    - unfold newObjectNDArray in H. apply bind_inv in H as ([[sh buf] dt] & _ & H).
      destruct (Z.eqb_spec (calcShapeElements sh) n); [|done]. injection H as <-. split; [done|]. cbn. congruence.
    - unfold newUnicodeNDArray in H. destruct ((n =? 0) && checks); [done|].
      apply map_inv in H as (l & (H1 & H2)%buffer_length & ->). specialize (Hg eq_refl).
      split; [|done]. split; [lia|]. split; nia.
    - apply map_inv in H as (l & (? & <-)%buffer_length & ->). split; [done|]. cbn. by rewrite map_length.
    - unfold newIntNDArray in H. case_decide; [|done]. apply map_inv in H as (l & (? & <-)%buffer_length & ->).
      split; [done|]. cbn. by rewrite map_length.
    - unfold newFloatNDArray in H. case_decide; [|done]. by apply map_inv in H as (l & (? & <-)%buffer_length & ->).
    - apply map_inv in H as (l & (? & <-)%buffer_length & ->). split; [done|]. cbn. by rewrite map_length.
    - apply map_inv in H as (l & (? & <-)%buffer_length & ->). split; [done|]. cbn. by rewrite map_length.
    - apply map_inv in H as (l & (? & <-)%buffer_length & ->). split; [done|]. cbn. by rewrite map_length.
    - apply map_inv in H as (l & (? & <-)%buffer_length & ->). split; [done|]. cbn. by rewrite map_length.
  Qed.

  Lemma len_elements p : sized p → counted p → page_len p = zlen (elements widen p).
  Proof using.
    destruct p as [buf|k buf|k buf|n buf k|buf|buf|sh buf dtypes]; cbn [page_len elements counted];
      try (by rewrite map_length); try done.
    intros Hs _. destruct (sized_texts n buf k Hs) as (els & -> & Hl & Hall & Etx).
    rewrite Etx, !map_length. done.
  Qed.

  Lemma file_len file p : file_of checks scalar file p →
    sized p ∧ page_len p = zlen (elements widen p) ∧ getPageLen file = Ok (zlen (elements widen p)).
  Proof using.
    intros [H Hc]. destruct (read_sized file p H) as [Hs Hl]. pose proof (len_elements p Hs Hc) as E.
    by rewrite <- E.
  Qed.

  (** * Items of files *)
  Lemma items_ok files pages cnt i c : Forall2 (file_of checks scalar) files pages → cnt <= i →
    at_position (concat (map (elements widen) pages)) (i - cnt) c → without_nul c →
    item_loop checks scalar widen cnt files i = Ok c.
  Proof using.
    intros H. revert cnt. induction H as [|file p files pages Hf _ IH]; intros cnt Hi [H0 Hc] Hn; [done|].
    destruct (file_len file p Hf) as (Hs & Hpl & Hl). cbn [item_loop]. rewrite Hl. cbn [res_bind].
    cbn [map concat] in Hc. destruct (Z.leb_spec (cnt + zlen (elements widen p)) i) as [Hge|Hlt].
    - rewrite lookup_app_r in Hc by lia. apply IH; [lia| |done]. split; [lia|].
      rewrite <- Hc. f_equal. lia.
    - rewrite lookup_app_l in Hc by lia. rewrite (proj1 Hf). cbn [res_bind].
      apply item_ok; [done|by split|by right].
  Qed.

  Lemma items_range files pages cnt i : Forall2 (file_of checks scalar) files pages →
    ¬ (cnt <= i < cnt + zlen (concat (map (elements widen) pages))) →
    item_loop checks scalar widen cnt files i = Err IndexError.
  Proof using.
    intros H. revert cnt. induction H as [|file p files pages Hf _ IH]; intros cnt Hi; [done|].
    destruct (file_len file p Hf) as (Hs & Hpl & Hl). cbn [item_loop]. rewrite Hl. cbn [res_bind].
    cbn [map concat] in Hi. rewrite app_length in Hi.
    destruct (Z.leb_spec (cnt + zlen (elements widen p)) i) as [Hge|Hlt].
    - apply IH. lia.
    - rewrite (proj1 Hf). cbn [res_bind]. apply (item_range widen); [done|]. lia.
  Qed.

  (** * The filter's pages *)
  Lemma eqb_dec m b : (m = b ∧ eqb m b = true) ∨ (m = negb b ∧ eqb m b = false).
  Proof using. destruct m, b; auto. Qed.

  Lemma indices_picks {A} b bits (l : list A) k : (List.length bits <= List.length (drop k l))%nat →
    ∃ cs, masked b bits (drop k l) cs ∧ picks l (indices b (Z.of_nat k) bits) cs.
  Proof using.
    revert k. induction bits as [|m bits IH]; intros k Hl.
    - exists []. split; constructor.
    - cbn [List.length] in Hl. destruct (drop k l) as [|x rest] eqn:E; [cbn in Hl; lia|].
      assert (l !! k = Some x) as Hx.
      { rewrite <- (Nat.add_0_r k). rewrite <- lookup_drop, E. done. }
      assert (drop (S k) l = rest) as Er.
      { rewrite (drop_S l x k Hx) in E. by injection E. }
      destruct (IH (S k)) as (cs & H1 & H2); [rewrite Er; cbn in Hl; lia|]. rewrite Er in H1.
      cbn [indices]. replace (Z.of_nat k + 1) with (Z.of_nat (S k)) by lia.
      destruct (eqb_dec m b) as [[-> ->]|[-> ->]].
      + exists (x :: cs). split; [by constructor|]. constructor; [|done]. split; [lia|]. by rewrite Nat2Z.id.
      + exists cs. split; [by constructor|done].
  Qed.

  Lemma masked_app {A} b m1 m2 (l1 l2 : list A) c1 c2 : List.length m1 = List.length l1 →
    masked b m1 l1 c1 → masked b m2 l2 c2 → masked b (m1 ++ m2) (l1 ++ l2) (c1 ++ c2).
  Proof using.
    intros Hl H1 H2. induction H1 as [l|m x l l' H1 IH|m x l l' H1 IH].
    - destruct l; [done|]. done.
    - cbn [app]. constructor. apply IH. by injection Hl.
    - cbn [app]. constructor. apply IH. by injection Hl.
  Qed.

  Lemma masked_more {A} b m (l1 l2 : list A) c : masked b m l1 c → masked b m (l1 ++ l2) c.
  Proof using. induction 1; cbn [app]; constructor; done. Qed.

  Lemma masked_incl {A} b m (l : list A) c : masked b m l c → ∀ x, x ∈ c → x ∈ l.
  Proof using.
    induction 1; intros y Hy; [by apply elem_of_nil in Hy| |].
    - apply elem_of_cons in Hy as [->|Hy]; [by left|]. right. auto.
    - right. auto.
  Qed.

  Lemma picks_nil {A} (l : list A) cs : picks l [] cs → cs = [].
  Proof using. intros H. by inversion H. Qed.

  Lemma dumpSlice_ok p idx cs : sized p → picks (elements widen p) idx cs →
    (object_page p → Forall (array_text checks) cs) →
    ∃ ps, dumpSlice checks idx p = Ok ps ∧ concat (map (elements widen) ps) = cs ∧ Forall (λ p, page_len p ≠ 0) ps.
  Proof using.
    intros Hs Hp Ht. unfold dumpSlice. destruct (Z.ltb_spec 0 (zlen idx)) as [H|H].
    - destruct (slice_ok widen checks p idx cs Hs Hp Ht) as (p' & -> & (He & Hl & _) & _).
      exists [p']. split; [done|]. cbn. rewrite app_nil_r. split; [done|]. constructor; [|done].
      rewrite Hl. pose proof (picks_length _ _ _ Hp). lia.
    - exists []. split; [done|]. destruct idx; [|cbn in H; lia]. apply picks_nil in Hp as ->. split; [done|constructor].
  Qed.

  Definition object_texts (p : page) : Prop := object_page p → Forall (array_text checks) (elements widen p).

  Lemma dumpLoop_ok files pages : Forall2 (file_of checks scalar) files pages → Forall object_texts pages →
    ∀ mask k,
    (k <= match pages with p :: _ => List.length (elements widen p) | [] => 0 end)%nat →
    (List.length mask <= List.length (drop k (concat (map (elements widen) pages))))%nat →
    ∃ pass fail, dumpLoop checks scalar mask (Z.of_nat k) files = Ok (pass, fail)
      ∧ masked true mask (drop k (concat (map (elements widen) pages))) (concat (map (elements widen) pass))
      ∧ masked false mask (drop k (concat (map (elements widen) pages))) (concat (map (elements widen) fail))
      ∧ Forall (λ p, page_len p ≠ 0) (pass ++ fail).
  Proof using.
    induction 1 as [|file p files pages Hf HF IH]; intros Hot mask k Hk Hl.
    { destruct mask; [|cbn in Hl; rewrite drop_nil in Hl; cbn in Hl; lia].
      exists [], []. split; [done|]. split; [constructor|]. split; constructor. }
    apply list.Forall_cons in Hot as [Hop Hot].
    destruct mask as [|m0 mask0].
    { exists [], []. split; [done|]. split; [constructor|]. split; constructor. }
    remember (m0 :: mask0) as mask eqn:Em.
    destruct (file_len file p Hf) as (Hs & Hpl & _).
    assert (dumpLoop checks scalar mask (Z.of_nat k) (file :: files) =
      res_bind (readNumpy checks scalar file) (λ page,
            let len := page_len page - Z.of_nat k in
            let sliceLen := Z.min (zlen mask) len in
            let bits := take (Z.to_nat sliceLen) mask in
            res_bind (dumpSlice checks (indices true (Z.of_nat k) bits) page) (λ pass,
            res_bind (dumpSlice checks (indices false (Z.of_nat k) bits) page) (λ fail,
            res_map (λ r, (pass ++ r.1, fail ++ r.2)) (dumpLoop checks scalar (drop (Z.to_nat sliceLen) mask) 0 files)))))
      as -> by (by rewrite Em).
    rewrite (proj1 Hf). cbn [res_bind]. cbv zeta. rewrite Hpl.
    set (s := Z.to_nat (Z.min (zlen mask) (zlen (elements widen p) - Z.of_nat k))).
    set (es := elements widen p) in *. cbn [map concat] in Hl |- *. fold es in Hl |- *.
    rewrite drop_app_le in Hl |- * by lia. rewrite app_length, drop_length in Hl.
    assert (s = Nat.min (List.length mask) (List.length es - k)) as Es by (unfold s; lia).
    assert (List.length (take s mask) <= List.length (drop k es))%nat as Hb.
    { rewrite take_length, drop_length. lia. }
    destruct (indices_picks true (take s mask) es k Hb) as (ct & Mt & Pt).
    destruct (indices_picks false (take s mask) es k Hb) as (cf & Mf & Pf).
    assert (∀ b c, masked b (take s mask) (drop k es) c → object_page p → Forall (array_text checks) c) as Htx.
    { intros b c Hm Ho. apply list.Forall_forall. intros x Hx.
      apply (proj1 (list.Forall_forall _ _) (Hop Ho)). fold es.
      apply (masked_incl _ _ _ _ Hm) in Hx. apply elem_of_list_lookup in Hx as [i Hi].
      rewrite lookup_drop in Hi. by eapply elem_of_list_lookup_2. }
    destruct (dumpSlice_ok p _ ct Hs Pt (Htx _ _ Mt)) as (pt & -> & Et & Nt). cbn [res_bind].
    destruct (dumpSlice_ok p _ cf Hs Pf (Htx _ _ Mf)) as (pf & -> & Ef & Nf). cbn [res_bind].
    destruct (IH Hot (drop s mask) 0%nat) as (pass & fail & E & M1 & M2 & N).
    { destruct pages; lia. }
    { rewrite drop_0, drop_length. lia. }
    change (Z.of_nat 0) with 0 in E. rewrite E. cbn [res_map fst snd].
    rewrite drop_0 in M1, M2. exists (pt ++ pass), (pf ++ fail). split; [done|].
    rewrite !map_app, !concat_app, Et, Ef.
    assert (∀ b c r, masked b (take s mask) (drop k es) c →
      masked b (drop s mask) (concat (map (elements widen) pages)) r →
      masked b mask (drop k es ++ concat (map (elements widen) pages)) (c ++ r)) as Hjoin.
    { intros b c r H1 H2. destruct (decide (List.length mask <= List.length es - k)%nat) as [Hle|Hgt].
      - assert (s = List.length mask) as Es' by lia.
        rewrite drop_ge in H2 by lia. rewrite take_ge in H1 by lia.
        inversion H2; subst. rewrite app_nil_r. by apply masked_more.
      - rewrite <- (take_drop s mask). apply masked_app; [|done|done].
        rewrite take_length, drop_length. lia. }
    split; [by apply Hjoin|]. split; [by apply Hjoin|].
    apply list.Forall_app in N as [N1 N2]. apply list.Forall_app. split; by apply list.Forall_app.
  Qed.

  Lemma firstPage_ok files pages cur offset : Forall2 (file_of checks scalar) files pages → cur <= offset →
    offset < cur + zlen (concat (map (elements widen) pages)) →
    ∃ files1 pages1 skipped cur', firstPage offset cur files = Ok (cur', files1)
      ∧ Forall2 (file_of checks scalar) files1 pages1 ∧ pages = skipped ++ pages1
      ∧ cur' = cur + zlen (concat (map (elements widen) skipped)) ∧ cur' <= offset
      ∧ (Z.to_nat (offset - cur') <= match pages1 with p :: _ => List.length (elements widen p) | [] => 0 end)%nat.
  Proof using.
    intros H. revert cur. induction H as [|file p files pages Hf HF IH]; intros cur H1 H2; [cbn in H2; lia|].
    destruct (file_len file p Hf) as (Hs & Hpl & Hl). cbn [firstPage]. rewrite Hl. cbn [res_bind].
    cbn [map concat] in H2. rewrite app_length in H2.
    destruct (Z.ltb_spec offset (cur + zlen (elements widen p))) as [Hlt|Hge].
    - exists (file :: files), (p :: pages), [], cur. split; [done|]. split; [by constructor|]. split; [done|].
      cbn [map concat List.length]. split; [lia|]. split; [done|]. lia.
    - destruct (IH (cur + zlen (elements widen p))) as (f1 & p1 & sk & cur' & E & F & -> & Ec & Hle & Hk); [lia|lia|].
      exists f1, p1, (p :: sk), cur'. split; [done|]. split; [done|]. split; [done|].
      cbn [map concat]. rewrite app_length. split; [lia|]. split; [done|done].
  Qed.

  Lemma dumpPage_ok files pages offset mask : Forall2 (file_of checks scalar) files pages →
    Forall object_texts pages → 0 <= offset → mask ≠ [] →
    offset + zlen mask <= zlen (concat (map (elements widen) pages)) →
    ∃ pass fail, dumpPage checks scalar offset mask files = Ok (pass, fail)
      ∧ masked true mask (drop (Z.to_nat offset) (concat (map (elements widen) pages)))
          (concat (map (elements widen) pass))
      ∧ masked false mask (drop (Z.to_nat offset) (concat (map (elements widen) pages)))
          (concat (map (elements widen) fail))
      ∧ Forall (λ p, page_len p ≠ 0) (pass ++ fail).
  Proof using.
    intros HF Hot H0 Hm Hl. assert (0 < zlen mask) as Hm' by (destruct mask; [done|cbn; lia]).
    destruct (firstPage_ok files pages 0 offset HF H0) as (f1 & p1 & sk & cur & E & F & -> & Ec & Hle & Hk); [lia|].
    unfold dumpPage. rewrite E. cbn [res_bind].
    apply list.Forall_app in Hot as [_ Hot]. rewrite map_app, concat_app in Hl |- *. rewrite app_length in Hl.
    rewrite drop_app_ge by lia.
    replace (Z.to_nat offset - List.length (concat (map (elements widen) sk)))%nat with (Z.to_nat (offset - cur)) by lia.
    destruct (dumpLoop_ok f1 p1 F Hot mask (Z.to_nat (offset - cur)) Hk) as (pass & fail & Ed & H).
    { rewrite drop_length. lia. }
    rewrite Z2Nat.id in Ed by lia. by exists pass, fail.
  Qed.
End files.
