(** Page names, reference counts and page files. *)
From stdpp Require Import strings pretty functions.
From Coq Require Import Ascii.
From Verif.Spec Require Export PageTerms.
From Verif.Model Require Import PageLife.
From Verif.Proof Require Import DictLemmas.
Local Open Scope Z_scope.

(** ** names *)
Notation chars := list_ascii_of_string.
Lemma chars_app a b : chars (a +:+ b) = chars a ++ chars b.
Proof. induction a as [|c a IH]; [done|]. simpl. f_equal. exact IH. Qed.
Lemma chars_inj a b : chars a = chars b → a = b.
Proof. intros H. rewrite <- (string_of_list_ascii_of_string a), H. apply string_of_list_ascii_of_string. Qed.

Definition dash : Ascii.ascii := "-"%char.
Lemma pretty_no_dash (n : N) : dash ∉ chars (pretty n).
Proof.
  unfold pretty, pretty_N. case_decide.
  - cbn. set_solver.
  - assert (Hgo : ∀ s, dash ∉ chars s → dash ∉ chars (pretty_N_go n s)).
    { clear. induction (N.lt_wf_0 n) as [x _ IH]; intros s Hs.
      assert (x = 0 ∨ 0 < x)%N as [->|Hx] by lia; [by rewrite pretty_N_go_0|].
      rewrite pretty_N_go_step by done. apply IH; [by apply N.div_lt|]. cbn [list_ascii_of_string].
      rewrite not_elem_of_cons. split; [|done]. unfold pretty_N_char, dash. repeat case_match; done. }
    apply Hgo. cbn. apply not_elem_of_nil.
Qed.

Lemma mark_split {X} (d : X) (a a' b b' : list X) :
  d ∉ a → d ∉ a' → a ++ d :: b = a' ++ d :: b' → a = a' ∧ b = b'.
Proof.
  revert a'. induction a as [|x a IH]; intros [|y a'] Ha Ha' H.
  - by injection H.
  - injection H as -> _. exfalso. apply Ha'. by left.
  - injection H as -> _. exfalso. apply Ha. by left.
  - injection H as -> H. apply not_elem_of_cons in Ha as [_ Ha], Ha' as [_ Ha'].
    destruct (IH a' Ha Ha' H) as [-> ->]. done.
Qed.

Lemma page_file_inj pid n pid' n' :
  (page_id pid n +:+ ".npy" = page_id pid' n' +:+ ".npy")%string → pid = pid' ∧ n = n'.
Proof.
  unfold page_id. intros H. apply (f_equal chars) in H. rewrite !chars_app in H. apply app_inv_tail in H.
  change (chars "-") with [dash] in H. cbn [app] in H.
  apply mark_split in H as [H1 H2]; [|apply pretty_no_dash..].
  apply chars_inj in H1, H2. by apply (inj pretty) in H1, H2.
Qed.
Lemma page_path_inj base pid n n' : page_path base (page_id pid n) = page_path base (page_id pid n') → n = n'.
Proof.
  unfold page_path. intros H. apply app_inv_head in H.
  assert (E : (page_id pid n +:+ ".npy")%string = (page_id pid n' +:+ ".npy")%string) by congruence.
  by apply page_file_inj in E as [_ ?].
Qed.

Lemma next_id_None fuel fs pid base n : next_id fuel fs pid base n = None →
  ∀ i, (i <= fuel)%nat → page_path base (page_id pid (n + N.of_nat i)) ∈ fs.
Proof.
  revert n. induction fuel as [|fuel IH]; intros n H i Hi; cbn [next_id] in H; case_decide; try done.
  - assert (i = 0)%nat as -> by lia. by rewrite N.add_0_r.
  - destruct i as [|i]; [by rewrite N.add_0_r|].
    replace (n + N.of_nat (S i))%N with (n + 1 + N.of_nat i)%N by lia. apply IH; [done|lia].
Qed.
Lemma next_id_fresh fuel fs pid base n id n' : next_id fuel fs pid base n = Some (id, n') →
  page_path base id ∉ fs.
Proof.
  revert n. induction fuel as [|fuel IH]; intros n H; cbn [next_id] in H; case_decide; try done.
  - by injection H as <- <-.
  - by eapply IH.
  - by injection H as <- <-.
Qed.
Lemma next_id_total fs pid base n : ∃ r, next_id (length fs) fs pid base n = Some r.
Proof.
  destruct (next_id (length fs) fs pid base n) as [r|] eqn:E; [by eexists|]. exfalso.
  pose proof (next_id_None _ _ _ _ _ E) as H.
  set (l := map (λ i, page_path base (page_id pid (n + N.of_nat i))) (seq 0 (S (length fs)))).
  assert (Hnd : NoDup l).
  { apply NoDup_fmap_2_strong; [|apply NoDup_seq]. intros i j _ _ Hij%page_path_inj. lia. }
  assert (Hsub : l ⊆ fs).
  { intros x Hx. apply elem_of_list_fmap in Hx as (i & -> & Hi%elem_of_seq). apply H. lia. }
  apply NoDup_submseteq in Hsub; [|exact Hnd]. apply submseteq_length in Hsub.
  unfold l in Hsub. rewrite map_length, seq_length in Hsub. lia.
Qed.

(** ** reference counts *)
Section refcount.
  Context {P : Type} `{EqDecision P} (pid : P → N) (cfg : P → list string).
  Notation state := (state P).

  Definition ref_of (p : P) (o : P * path) : option path :=
    if decide (o.1 = p) then if owns cfg p o.2 then Some o.2 else None else None.
  Definition refs (p : P) (os : list (P * path)) : list path := omap (ref_of p) os.

  Lemma elem_of_refs p f os : f ∈ refs p os ↔ owns cfg p f = true ∧ (p, f) ∈ os.
  Proof using Type.
    unfold refs. rewrite elem_of_list_omap. split.
    - intros ([q g] & Hin & Hr). unfold ref_of in Hr. cbn in Hr. case_decide; [subst|done].
      destruct (owns cfg p g) eqn:E; [|done]. by injection Hr as ->.
    - intros [Ho Hin]. exists (p, f). split; [done|]. unfold ref_of. cbn. by rewrite decide_True, Ho.
  Qed.

  Lemma cdict_dec (d : list (path * Z)) k ks ks' : cdict d ks → ks ≡ₚ k :: ks' →
    let rc := Z.max (dget_or d k 0 - 1) 0 in
    ((0 <? rc) = true ↔ k ∈ ks') ∧
    ((0 <? rc) = true → cdict (dset d k rc) ks') ∧
    ((0 <? rc) = false → cdict (ddel (dset d k rc) k) ks').
  Proof using Type.
    clear pid cfg. intros Hd Hp. cbv zeta. rewrite (cdict_get_or _ _ _ Hd).
    assert (Hc : ∀ j, cnt j ks = cnt j (k :: ks')).
    { intros j. unfold cnt, Counts.count_if. f_equal. apply Permutation_length. by rewrite Hp. }
    rewrite Hc, cnt_cons, decide_True by done.
    pose proof (cnt_pos k ks') as Hpos. replace (Z.max (1 + cnt k ks' - 1) 0) with (cnt k ks') by lia.
    destruct Hd as [Hnd Hd]. split_and!.
    - split.
      + intros H. destruct (decide (k ∈ ks')) as [|Hn]; [done|]. rewrite (cnt_zero _ _ Hn) in H. done.
      + intros H%cnt_elem. lia.
    - intros H. split; [by apply dset_NoDup|]. intros j. rewrite dget_dset, Hd, Hc, cnt_cons.
      destruct (decide (j = k)) as [->|Hne].
      + rewrite decide_True by lia. done.
      + rewrite (decide_False (P := k = j)) by congruence. done.
    - intros H. assert (cnt k ks' = 0) as Hz by lia. split; [by apply ddel_NoDup, dset_NoDup|].
      intros j. rewrite dget_ddel, dget_dset, Hd, Hc, cnt_cons. destruct (decide (j = k)) as [->|Hne].
      + rewrite Hz. done.
      + rewrite (decide_False (P := k = j)) by congruence. done.
  Qed.

  Definition counted (s : state) : Prop := ∀ p, cdict (refcounts s p) (refs p (objs s)).

  Lemma counted_start fs : counted (start fs).
  Proof using Type. intros p. apply cdict_nil. Qed.

  Lemma refs_snoc p os o : refs p (os ++ [o]) = refs p os ++ (match ref_of p o with Some f => [f] | None => [] end).
  Proof using Type. unfold refs. rewrite omap_app. cbn. by destruct (ref_of p o). Qed.

  Lemma counted_incr p f (s : state) fs : counted s →
    let s' := incr_refcount cfg p f s in
    counted (MkState fs (ids s') (refcounts s') (objs s' ++ [(p, f)])).
  Proof using Type.
    intros H. cbv zeta. unfold incr_refcount. intros q. cbn [refcounts objs].
    destruct (owns cfg p f) eqn:Eo; cbn [refcounts objs]; rewrite refs_snoc; unfold ref_of; cbn [fst snd].
    - destruct (decide (p = q)) as [->|Hne].
      + rewrite Eo, fn_lookup_insert. apply cdict_dset, H.
      + rewrite fn_lookup_insert_ne by done. rewrite app_nil_r. apply H.
    - case_decide; [subst; rewrite Eo|]; rewrite app_nil_r; apply H.
  Qed.

  Lemma refs_delete p os i q f : os !! i = Some (q, f) →
    (p = q ∧ owns cfg q f = true → refs p os ≡ₚ f :: refs p (delete i os)) ∧
    (p ≠ q ∨ owns cfg q f = false → refs p os ≡ₚ refs p (delete i os)).
  Proof using Type.
    intros Hi. assert (Hp : refs p os ≡ₚ refs p ((q, f) :: delete i os)).
    { unfold refs. apply omap_Permutation. by apply delete_Permutation. }
    assert (Hc : refs p ((q, f) :: delete i os) = match ref_of p (q, f) with
      Some x => x :: refs p (delete i os) | None => refs p (delete i os) end) by done.
    rewrite Hp, Hc. unfold ref_of. cbn [fst snd]. split.
    - intros [-> Ho]. by rewrite decide_True, Ho.
    - intros [Hne|Ho]; [by rewrite decide_False|]. case_decide; [subst; by rewrite Ho|done].
  Qed.

  Lemma cdict_permutation (d : list (path * Z)) ks ks' : ks ≡ₚ ks' → cdict d ks → cdict d ks'.
  Proof using Type.
    clear pid cfg. intros Hp. apply cdict_perm. intros k. unfold cnt, Counts.count_if. f_equal.
    apply Permutation_length. by rewrite Hp.
  Qed.

  (** what a [Drop] does *)
  Lemma drop_counted ac s i p f s' : counted s → objs s !! i = Some (p, f) → step pid cfg ac (Drop i) s = Some s' →
    counted s' ∧ objs s' = delete i (objs s) ∧ ids s' = ids s ∧
    ((owns cfg p f = true ∧ (p, f) ∉ objs s' ∧ files s' = if ac then filter (λ g, g ≠ f) (files s) else files s) ∨
     ((owns cfg p f = false ∨ (p, f) ∈ objs s') ∧ files s' = files s)).
  Proof using Type.
    intros Hc Hi Hs. cbn [step] in Hs. rewrite Hi in Hs. injection Hs as <-. unfold page_del.
    destruct (owns cfg p f) eqn:Eo; cbn [negb refcounts files ids objs].
    - pose proof (proj1 (refs_delete p _ _ _ _ Hi) (conj eq_refl Eo)) as Hp.
      destruct (cdict_dec _ _ _ _ (Hc p) Hp) as (Hiff & Ht & Hf). cbv zeta in *.
      rewrite elem_of_refs in Hiff.
      destruct (0 <? Z.max (dget_or (refcounts s p) f 0 - 1) 0) eqn:E; cbn [refcounts files ids objs].
      + split; [|split; [done|]; split; [done|]; right; split; [right; by apply Hiff|done]].
        intros q. cbn [refcounts objs]. destruct (decide (q = p)) as [->|Hne].
        * rewrite fn_lookup_insert. by apply Ht.
        * rewrite fn_lookup_insert_ne by done. eapply cdict_permutation; [|apply Hc].
          apply (proj2 (refs_delete q _ _ _ _ Hi)). by left.
      + split; [|split; [done|]; split; [done|]; left; split; [done|]; split; [|done]].
        * intros q. cbn [refcounts objs]. destruct (decide (q = p)) as [->|Hne].
          -- rewrite fn_lookup_insert. by apply Hf.
          -- rewrite fn_lookup_insert_ne by done. eapply cdict_permutation; [|apply Hc].
             apply (proj2 (refs_delete q _ _ _ _ Hi)). by left.
        * intros Hin. destruct Hiff as [_ Hiff]. by specialize (Hiff (conj Eo Hin)).
    - split; [|split; [done|]; split; [done|]; right; split; [by left|done]].
      intros q. cbn [refcounts objs]. eapply cdict_permutation; [|apply Hc].
      apply (proj2 (refs_delete q _ _ _ _ Hi)). by right.
  Qed.

  Lemma step_counted ac o s s' : counted s → step pid cfg ac o s = Some s' → counted s'.
  Proof using Type.
    intros Hc Hs. destruct o as [p base|p f|i].
    - cbn [step] in Hs. destruct (next_id _ _ _ _ _) as [[id n]|]; [|done]. injection Hs as <-.
      apply counted_incr. exact Hc.
    - cbn [step] in Hs. injection Hs as <-. apply counted_incr. exact Hc.
    - cbn [step] in Hs. destruct (objs s !! i) as [[p f]|] eqn:Hi; [|done].
      eapply (drop_counted ac s i); [done|done|]. cbn [step]. by rewrite Hi.
  Qed.
  Lemma run_counted ac os s s' : counted s → run pid cfg ac os s = Some s' → counted s'.
  Proof using Type.
    revert s. induction os as [|o os IH]; intros s Hc; cbn [run]; [by intros [= <-]|].
    destruct (step pid cfg ac o s) as [s1|] eqn:E; [|done]. apply IH. by eapply step_counted.
  Qed.

  Theorem drop_spec os fs s i p f s' :
    run pid cfg true os (start fs) = Some s → objs s !! i = Some (p, f) → step pid cfg true (Drop i) s = Some s' →
    objs s' = delete i (objs s) ∧
    (∀ g, g ≠ f → g ∈ files s' ↔ g ∈ files s) ∧
    (owns cfg p f = false ∨ (p, f) ∈ objs s' → files s' = files s) ∧
    (owns cfg p f = true → (p, f) ∉ objs s' → f ∉ files s').
  Proof using Type.
    intros Hr Hi Hs. pose proof (run_counted _ _ _ _ (counted_start fs) Hr) as Hc.
    destruct (drop_counted true s i p f s' Hc Hi Hs) as (_ & Ho & _ & H). split; [done|].
    destruct H as [(Hown & Hno & Hfs)|([Hown|Hin] & Hfs)].
    - split_and!.
      + intros g Hg. rewrite Hfs, elem_of_list_filter. tauto.
      + intros [?|?]; congruence.
      + intros _ _. rewrite Hfs, elem_of_list_filter. tauto.
    - split_and!; [by intros; rewrite Hfs|done|congruence].
    - split_and!; [by intros; rewrite Hfs|done|done].
  Qed.

  Theorem new_spec ac s p base : ∃ s' f,
    step pid cfg ac (New p base) s = Some s' ∧ f ∉ files s ∧ files s' = f :: files s ∧ objs s' = objs s ++ [(p, f)].
  Proof using Type.
    cbn [step]. destruct (next_id_total (files s) (pid p) base (ids s p)) as [[id n] Hn]. rewrite Hn.
    eexists _, _. split; [done|]. split; [by eapply next_id_fresh|]. unfold incr_refcount.
    by destruct (owns cfg p _).
  Qed.
  Lemma attach_spec ac s p f : ∃ s', step pid cfg ac (Attach p f) s = Some s' ∧ files s' = files s ∧
    objs s' = objs s ++ [(p, f)].
  Proof using Type. cbn [step]. eexists. split; [done|]. unfold incr_refcount. by destruct (owns cfg p f). Qed.

  Notation attach_found := (attach_found pid cfg).
  Notation one_owner := (one_owner cfg).

  Definition backed (f : path) (s : state) : Prop := ∀ p, (p, f) ∈ objs s → owns cfg p f = true → f ∈ files s.

  Lemma step_backed f o s s' : one_owner f → counted s → backed f s →
    match o with Attach _ g => g = f → f ∈ files s | _ => True end →
    step pid cfg true o s = Some s' → backed f s'.
  Proof using Type.
    intros H1 Hc Hb Ha Hs. destruct o as [p base|p g|i].
    - destruct (new_spec true s p base) as (s1 & g & Hs1 & _ & Hf & Ho). rewrite Hs in Hs1. injection Hs1 as <-.
      intros q Hin Hown. rewrite Ho in Hin. rewrite Hf. apply elem_of_app in Hin as [Hin|Hin].
      + right. by eapply Hb.
      + apply elem_of_list_singleton in Hin as [= -> ->]. by left.
    - destruct (attach_spec true s p g) as (s1 & Hs1 & Hf & Ho). rewrite Hs in Hs1. injection Hs1 as <-.
      intros q Hin Hown. rewrite Ho in Hin. rewrite Hf. apply elem_of_app in Hin as [Hin|Hin].
      + by eapply Hb.
      + apply elem_of_list_singleton in Hin as [= -> ->]. by apply Ha.
    - pose proof Hs as Hs0. cbn [step] in Hs0. destruct (objs s !! i) as [[p g]|] eqn:Hi; [|done]. clear Hs0.
      destruct (drop_counted true s i p g s' Hc Hi Hs) as (_ & Ho & _ & H).
      intros q Hin Hown. assert (Hg : f ∈ files s).
      { eapply Hb; [|done]. rewrite Ho in Hin. rewrite (delete_Permutation _ _ _ Hi). by right. }
      destruct H as [(Hof & Hno & ->)|(_ & ->)]; [|done].
      apply elem_of_list_filter. split; [|done]. intros ->. assert (q = p) as -> by (by eapply H1). done.
  Qed.

  Theorem live_spec os fs s f : one_owner f → attach_found f os (start fs) → run pid cfg true os (start fs) = Some s →
    ∀ p, (p, f) ∈ objs s → owns cfg p f = true → f ∈ files s.
  Proof using Type.
    intros H1. assert (Hb : backed f (start fs)) by (intros p Hin; by apply elem_of_nil in Hin).
    pose proof (counted_start fs) as Hc. revert Hb Hc. generalize (start (P := P) fs) as s0.
    induction os as [|o os IH]; intros s0 Hb Hc Ha Hr; cbn [run] in Hr.
    - injection Hr as <-. exact Hb.
    - cbn [attach_found] in Ha. destruct Ha as [Ha1 Ha2]. destruct (step pid cfg true o s0) as [s1|] eqn:E; [|done].
      eapply (IH s1); [by eapply step_backed|by eapply step_counted|done|done].
  Qed.

  (** one process *)
  Theorem lifetime_spec p os fs s : (∀ q, q = p) → run pid cfg true os (start fs) = Some s →
    ∀ f, attach_found f os (start fs) → f ∉ fs → owns cfg p f = true → (f ∈ files s ↔ (p, f) ∈ objs s).
  Proof using Type.
    intros Hp Hr f Ha Hf Hown. split.
    - pose proof (counted_start fs) as Hc. clear Ha.
      assert (H0 : f ∈ files (start (P := P) fs) → (p, f) ∈ objs (start (P := P) fs)) by (intros H; done).
      revert H0 Hc Hr. generalize (start (P := P) fs) as s0.
      induction os as [|o os IH]; intros s0 H0 Hc Hr; cbn [run] in Hr; [by injection Hr as <-|].
      destruct (step pid cfg true o s0) as [s1|] eqn:E; [|done].
      apply (IH s1); [|by eapply step_counted|done]. destruct o as [q base|q g|i].
      + destruct (new_spec true s0 q base) as (s2 & g & Hs2 & _ & Hfs & Ho). rewrite E in Hs2. injection Hs2 as <-.
        rewrite Hfs, Ho, elem_of_cons, elem_of_app, elem_of_list_singleton. intros [->|H].
        * right. by rewrite (Hp q).
        * left. by apply H0.
      + destruct (attach_spec true s0 q g) as (s2 & Hs2 & Hfs & Ho). rewrite E in Hs2. injection Hs2 as <-.
        rewrite Hfs, Ho, elem_of_app. intros H. left. by apply H0.
      + pose proof E as Hs0. cbn [step] in Hs0. destruct (objs s0 !! i) as [[q g]|] eqn:Hi; [|done]. clear Hs0.
        destruct (drop_counted true s0 i q g s1 Hc Hi E) as (_ & Ho & _ & H).
        destruct (decide (g = f)) as [->|Hne].
        * assert (q = p) as -> by apply Hp. destruct H as [(_ & _ & Hfs)|([Hof|Hin] & _)]; [|congruence|done].
          rewrite Hfs, elem_of_list_filter. tauto.
        * assert (Hsub : (p, f) ∈ objs s0 → (p, f) ∈ objs s1).
          { rewrite Ho. intros Hin. rewrite (delete_Permutation _ _ _ Hi) in Hin.
            apply elem_of_cons in Hin as [[= -> ->]|?]; done. }
          intros Hin. apply Hsub, H0. destruct H as [(_ & _ & Hfs)|(_ & Hfs)]; rewrite Hfs in Hin; [|done].
          by apply elem_of_list_filter in Hin as [_ ?].
    - intros Hin. eapply (live_spec os); [|done|done|done|done]. intros p' q' _ _. by rewrite (Hp p'), (Hp q').
  Qed.
End refcount.

(** ** interleaved allocation *)
Section alloc.
  Context {T : Type} `{EqDecision T} (proc : T → N).
  Notation astate := (astate T).

  Lemma file_of_inj t n t' n' : file_of proc t n = file_of proc t' n' → proc t = proc t' ∧ n = n'.
  Proof using Type. apply page_file_inj. Qed.

  Definition holds (q : pc) (n : N) : Prop := q = Picked n ∨ q = Named n.
  (** numbers in use are below the counter and different, a checked name is free *)
  Record ok (s : astate) : Prop := {
    ok_below : ∀ t n, holds (apc s t) n → (n < aids s (proc t))%N;
    ok_diff : ∀ t t' n, holds (apc s t) n → holds (apc s t') n → proc t = proc t' → t = t';
    ok_free : ∀ t n, apc s t = Named n → file_of proc t n ∉ afiles s;
  }.
  Lemma ok_start fs : ok (astart fs).
  Proof using Type. split; cbn; unfold holds; naive_solver. Qed.

  Lemma astep_ok a s s' : ok s → astep proc a s = Some s' → ok s'.
  Proof using Type.
    intros [H1 H2 H3] Hs. destruct a as [t|t|t|f|pid]; cbn [astep] in Hs.
    - destruct (apc s t) eqn:E; try done. injection Hs as <-. split; cbn [apc aids afiles].
      + intros u n Hn. destruct (decide (u = t)) as [->|Hu].
        * rewrite fn_lookup_insert in Hn. rewrite fn_lookup_insert. destruct Hn as [[= <-]|?]; [lia|done].
        * rewrite (fn_lookup_insert_ne (apc s)) in Hn by done. apply H1 in Hn.
          destruct (decide (proc t = proc u)) as [e|Hne].
          -- rewrite e. rewrite fn_lookup_insert. lia.
          -- by rewrite fn_lookup_insert_ne.
      + assert (Hx : ∀ u n, holds (<[t:=Picked (aids s (proc t))]> (apc s) t) n → u ≠ t → holds (apc s u) n → proc t ≠ proc u).
        { intros u n Hn Hu Hh%H1 e. rewrite fn_lookup_insert in Hn. destruct Hn as [[= <-]|?]; [|done]. rewrite e in Hh. lia. }
        intros u u' n Hn Hn' Hp. destruct (decide (u = t)) as [->|Hu], (decide (u' = t)) as [->|Hu']; [done| | |].
        * exfalso. rewrite (fn_lookup_insert_ne (apc s) t u') in Hn' by done. by eapply (Hx u').
        * exfalso. rewrite (fn_lookup_insert_ne (apc s) t u) in Hn by done. by eapply (Hx u).
        * rewrite fn_lookup_insert_ne in Hn, Hn' by done. by eapply H2.
      + intros u n Hn. destruct (decide (u = t)) as [->|Hu].
        * by rewrite fn_lookup_insert in Hn.
        * rewrite fn_lookup_insert_ne in Hn by done. by apply H3.
    - destruct (apc s t) as [|n0|] eqn:E; try done. injection Hs as <-.
      assert (Hh : ∀ u n, holds (<[t:=if decide (file_of proc t n0 ∈ afiles s) then Idle else Named n0]> (apc s) u) n →
        holds (apc s u) n).
      { intros u n. destruct (decide (u = t)) as [->|Hu].
        - rewrite fn_lookup_insert, E. case_decide; unfold holds; naive_solver.
        - by rewrite fn_lookup_insert_ne. }
      split; cbn [apc aids afiles].
      + intros u n Hn. by apply H1, Hh.
      + intros u u' n Hn Hn'. apply (H2 _ _ n); by apply Hh.
      + intros u n. destruct (decide (u = t)) as [->|Hu].
        * rewrite fn_lookup_insert. case_decide; [done|]. by intros [= <-].
        * rewrite fn_lookup_insert_ne by done. apply H3.
    - destruct (apc s t) as [|n0|n0] eqn:E; try done. injection Hs as <-.
      assert (Hh : ∀ u n, holds (<[t:=Idle]> (apc s) u) n → u ≠ t ∧ holds (apc s u) n).
      { intros u n. destruct (decide (u = t)) as [->|Hu].
        - rewrite fn_lookup_insert. unfold holds; naive_solver.
        - by rewrite fn_lookup_insert_ne. }
      split; cbn [apc aids afiles].
      + intros u n Hn. by apply H1, Hh.
      + intros u u' n Hn Hn'. apply (H2 _ _ n); by apply Hh.
      + intros u n Hn. destruct (Hh u n (or_intror Hn)) as [Hu Hn'].
        rewrite fn_lookup_insert_ne in Hn by done. rewrite not_elem_of_cons. split; [|by apply H3].
        intros [Hp ->]%file_of_inj. apply Hu. eapply (H2 u t n0); [by right|by right|done].
    - injection Hs as <-. split; cbn [apc aids afiles]; [done|done|].
      intros t n Hn%H3 Hin. by apply elem_of_list_filter in Hin as [_ Hin].
    - injection Hs as <-. split; cbn [apc aids afiles].
      + intros t n Hn. case_decide; [unfold holds in Hn; naive_solver|]. rewrite fn_lookup_insert_ne by done. by apply H1.
      + intros t t' n Hn Hn'. repeat case_decide; unfold holds in *; naive_solver.
      + intros t n. case_decide; [done|]. apply H3.
  Qed.
  Lemma arun_ok l s s' : ok s → arun proc l s = Some s' → ok s'.
  Proof using Type.
    revert s. induction l as [|a l IH]; intros s Hok; cbn [arun]; [by intros [= <-]|].
    destruct (astep proc a s) as [s1|] eqn:E; [|done]. apply IH. by eapply astep_ok.
  Qed.

  Theorem no_overwrite fs l s t n : arun proc l (astart fs) = Some s → apc s t = Named n →
    file_of proc t n ∉ afiles s.
  Proof using Type. intros Hr. apply (arun_ok _ _ _ (ok_start fs)) in Hr. apply (ok_free _ Hr). Qed.
  Theorem no_clash fs l s t t' n n' : arun proc l (astart fs) = Some s →
    apc s t = Named n → apc s t' = Named n' → t ≠ t' → file_of proc t n ≠ file_of proc t' n'.
  Proof using Type.
    intros Hr Hn Hn' Hne. apply (arun_ok _ _ _ (ok_start fs)) in Hr as [_ H2 _].
    intros [Hp ->]%file_of_inj. apply Hne. eapply (H2 t t' n'); [by right|by right|done].
  Qed.

  (** without a reuse of process ids: every name is created at most once *)
  Theorem created_once fs l : existsb restarts l = false → NoDup (created proc l (astart fs)).
  Proof using Type.
    intros Hr.
    (* what is created from [s] on: not yet used by an idle number *)
    assert (H : ∀ l s, existsb restarts l = false → ok s → NoDup (created proc l s) ∧
      ∀ f, f ∈ created proc l s → ∃ t n, f = file_of proc t n ∧ ((aids s (proc t) <= n)%N ∨
        ∃ u, proc u = proc t ∧ holds (apc s u) n)).
    { clear. induction l as [|a l IH]; intros s Hr Hok; cbn [created].
      { split; [constructor|]. intros f Hf. by apply elem_of_nil in Hf. }
      cbn [existsb] in Hr. apply orb_false_iff in Hr as [Ha Hr].
      destruct (astep proc a s) as [s1|] eqn:E; [|split; [constructor|]; intros f Hf; by apply elem_of_nil in Hf].
      destruct (IH s1 Hr (astep_ok _ _ _ Hok E)) as [Hnd Hin].
      destruct a as [t|t|t|g|pid]; cbn [astep written] in *; [| | | |done].
      - destruct (apc s t) eqn:Ep; try done. injection E as <-. split; [done|].
        intros f (u & n & -> & H)%Hin. exists u, n. split; [done|]. cbn [apc aids] in H.
        destruct H as [H|(w & Hw & H)].
        + left. destruct (decide (proc t = proc u)) as [e|e]; [rewrite <- e in *; rewrite fn_lookup_insert in H; lia|].
          by rewrite fn_lookup_insert_ne in H.
        + destruct (decide (w = t)) as [->|Hwt].
          * rewrite fn_lookup_insert in H. destruct H as [[= <-]|?]; [|done]. left. by rewrite Hw.
          * rewrite fn_lookup_insert_ne in H by done. right. by exists w.
      - destruct (apc s t) as [|n0|] eqn:Ep; try done. injection E as <-. split; [done|].
        intros f (u & n & -> & H)%Hin. exists u, n. split; [done|]. cbn [apc aids] in H.
        destruct H as [H|(w & Hw & H)]; [by left|]. right. exists w. split; [done|].
        destruct (decide (w = t)) as [->|Hwt].
        + rewrite fn_lookup_insert in H. rewrite Ep. case_decide; unfold holds in *; naive_solver.
        + by rewrite fn_lookup_insert_ne in H.
      - destruct (apc s t) as [|n0|n0] eqn:Ep; try done. injection E as <-. cbn [apc aids] in Hin.
        assert (Hold : ∀ f, f ∈ created proc l (MkA (file_of proc t n0 :: afiles s) (aids s) (<[t:=Idle]> (apc s))) →
          ∃ u n, f = file_of proc u n ∧ ((aids s (proc u) <= n)%N ∨ ∃ w, w ≠ t ∧ proc w = proc u ∧ holds (apc s w) n)).
        { intros f (u & n & -> & H)%Hin. exists u, n. split; [done|].
          destruct H as [H|(w & Hw & H)]; [by left|]. right. exists w. destruct (decide (w = t)) as [->|Hwt].
          - rewrite fn_lookup_insert in H. unfold holds in H. naive_solver.
          - by rewrite fn_lookup_insert_ne in H. }
        split.
        + constructor; [|done]. intros (u & n & [Hp ->]%file_of_inj & H)%Hold. destruct H as [H|(w & Hwt & Hw & H)].
          * pose proof (ok_below _ Hok t n (or_intror Ep)). rewrite Hp in *. lia.
          * apply Hwt. eapply (ok_diff _ Hok w t n); [done|by right|congruence].
        + intros f [->|Hf]%elem_of_cons.
          * exists t, n0. split; [done|]. right. exists t. split; [done|]. by right.
          * apply Hold in Hf as (u & n & -> & H). exists u, n. split; [done|]. destruct H as [H|(w & _ & Hw & H)]; [by left|].
            right. by exists w.
      - injection E as <-. done. }
    apply (H l (astart fs) Hr (ok_start fs)).
  Qed.
End alloc.

(** the pages of a text import are called 1.npy, 2.npy, ... (text_reader.nim 237) *)
Lemma import_name_differs (k pid n : N) : (pretty k +:+ ".npy" ≠ page_id pid n +:+ ".npy")%string.
Proof.
  unfold page_id. intros H. apply (f_equal chars) in H. rewrite !chars_app in H. apply app_inv_tail in H.
  apply (pretty_no_dash k). rewrite H. apply elem_of_app. right. change (chars "-") with [dash]. by left.
Qed.

(** ** ownership and names *)
Section Fresh.
  Context {P : Type} `{EqDecision P} (pid : P → N) (cfg : P → list string).

  Lemma owns_spec (p : P) (f : path) : owns cfg p f = true ↔ ∀ x, x ∈ cfg p → x ∈ f.
  Proof using Type.
    unfold owns. rewrite forallb_forall. split.
    - intros H x Hx. apply elem_of_list_In in Hx. by apply H, bool_decide_eq_true in Hx.
    - intros H x Hx. apply elem_of_list_In in Hx. by apply bool_decide_eq_true, H.
  Qed.

  Lemma next_id_number fuel fs pd base n id n' : next_id fuel fs pd base n = Some (id, n') →
    ∃ k, id = page_id pd k ∧ (n <= k < n')%N.
  Proof using Type.
    revert n. induction fuel as [|fuel IH]; intros n H; cbn [next_id] in H; case_decide; try done.
    - injection H as <- <-. exists n. split; [done|lia].
    - destruct (IH _ H) as (k & -> & Hk). exists k. split; [done|lia].
    - injection H as <- <-. exists n. split; [done|lia].
  Qed.

  Lemma ids_incr p f (s : state P) : ids (incr_refcount cfg p f s) = ids s.
  Proof using Type. unfold incr_refcount. by destruct (owns cfg p f). Qed.
  Lemma objs_incr p f (s : state P) : objs (incr_refcount cfg p f s) = objs s.
  Proof using Type. unfold incr_refcount. by destruct (owns cfg p f). Qed.

  Lemma new_ids ac p base (s s' : state P) : step pid cfg ac (New p base) s = Some s' →
    ∃ k, objs s' = objs s ++ [(p, page_path base (page_id (pid p) k))] ∧ (ids s p <= k < ids s' p)%N ∧
      ∀ q, q ≠ p → ids s' q = ids s q.
  Proof using Type.
    cbn [step]. destruct (next_id _ _ _ _ _) as [[id n]|] eqn:E; [|done]. intros [= <-].
    destruct (next_id_number _ _ _ _ _ _ _ E) as (k & -> & Hk). exists k. cbn.
    rewrite ids_incr, objs_incr. cbn. rewrite fn_lookup_insert. split_and!; [done|lia|lia|].
    intros q Hq. by apply fn_lookup_insert_ne.
  Qed.

  Lemma step_ids ac o (s s' : state P) q : step pid cfg ac o s = Some s' → (ids s q <= ids s' q)%N.
  Proof using Type.
    destruct o as [p base|p f|i]; intros H.
    - destruct (new_ids _ _ _ _ _ H) as (k & _ & Hk & Hq). destruct (decide (q = p)) as [->|Hne]; [lia|].
      rewrite Hq by done. lia.
    - cbn in H. injection H as <-. cbn. rewrite ids_incr. lia.
    - cbn in H. destruct (objs s !! i) as [[p f]|]; [|done]. injection H as <-. unfold page_del.
      repeat case_match; cbn; lia.
  Qed.
  Lemma run_ids ac os (s s' : state P) q : run pid cfg ac os s = Some s' → (ids s q <= ids s' q)%N.
  Proof using Type.
    revert s. induction os as [|o os IH]; intros s H; cbn in H; [injection H as <-; lia|].
    destruct (step pid cfg ac o s) as [s1|] eqn:E; [|done]. apply IH in H. apply (step_ids _ _ _ _ q) in E. lia.
  Qed.

  Lemma fresh_names ac os (s s1 s2 s3 : state P) p base q base' f g :
    (∀ p q, pid p = pid q → p = q) →
    step pid cfg ac (New p base) s = Some s1 → objs s1 = objs s ++ [(p, f)] →
    run pid cfg ac os s1 = Some s2 →
    step pid cfg ac (New q base') s2 = Some s3 → objs s3 = objs s2 ++ [(q, g)] → f ≠ g.
  Proof using Type.
    intros Hinj H1 O1 Hr H3 O3 ->.
    destruct (new_ids _ _ _ _ _ H1) as (k & E1 & Hk & _), (new_ids _ _ _ _ _ H3) as (m & E3 & Hm & _).
    rewrite E1 in O1. apply app_inv_head in O1. injection O1 as O1.
    rewrite E3 in O3. apply app_inv_head in O3. injection O3 as O3.
    rewrite <- O3 in O1. unfold page_path in O1. apply (f_equal list.last) in O1.
    rewrite !list.last_app in O1. cbn in O1. injection O1 as O1.
    destruct (page_file_inj _ _ _ _ O1) as [Hp ->]. apply Hinj in Hp as ->.
    pose proof (run_ids _ _ _ _ q Hr). lia.
  Qed.
End Fresh.
