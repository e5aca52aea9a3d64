(** Nearest neighbour imputation: the loop over the rows and the table. *)
From Coq Require Import QArith Qabs Sorted Lqa.
From Verif.Spec Require Export Impute Neighbour.
From Verif.Model Require Import Nearest.
From Verif.Proof Require Import DictLemmas.
From Verif.Proof Require StatsProofs.
From Verif.Proof Require Export NearestProofs.

Local Notation last := Nearest.last.

Section final.
  Context {N A : Type} `{EqDecision N, EqDecision A} (leb : A → A → bool) (missing : list A).
  Notation pages := (list (list A)).
  Notation ghost := (@ghost A).
  Definition miss (x : A) : bool := bool_decide (x ∈ missing).
  Lemma known_in xs x : x ∈ known miss xs ↔ x ∉ missing ∧ x ∈ xs.
  Proof using Type. unfold known, miss. rewrite elem_of_list_filter, bool_decide_eq_false. done. Qed.
  Definition R (xs : list A) (x y : A) : Prop := y = x ∨ miss x = true ∧ y ∈ known miss xs.
  Lemma R_refl xs x : R xs x x. Proof using Type. by left. Qed.
  Lemma R_missing xs x y : R xs x y → y ∈ missing → x ∈ missing.
  Proof using Type. intros [->|[H Hk]] Hy; [done|]. apply known_in in Hk as [? _]. done. Qed.
  Lemma Forall2_pages (P : A → A → Prop) (c d : pages) : Forall2 (Forall2 P) c d → Forall2 P (concat c) (concat d).
  Proof using Type. induction 1; cbn; [constructor|]. by apply Forall2_app. Qed.
  Lemma Forall2_lens (P : A → A → Prop) (c d : pages) : Forall2 (Forall2 P) c d → map length d = map length c.
  Proof using Type. induction 1 as [|x y c d H _ IH]; [done|]. cbn. by rewrite IH, (Forall2_length _ _ _ H). Qed.

  Context (lens : list nat) (srcs : list pages).
  Context (Hsrcs : srcs ≠ []) (Hlay : Forall (λ c, map length c = lens) srcs).
  Notation len := (sum_list lens).
  Notation norms := (map (λ c, map (norm leb missing (concat c)) (concat c)) srcs).
  Notation errs := (errs leb missing len srcs).
  Notation cols := (map (λ c, concat c) srcs).
  Context (leb_total : ∀ x y, leb x y = true ∨ leb y x = true) (leb_trans : ∀ x y z, leb x y = true → leb y z = true → leb x z = true)
    (leb_anti : ∀ x y, leb x y = true → leb y x = true → x = y).

  (** ** what holds always *)
  Definition InvA (g : ghost) : Prop :=
    map length (gc g) = lens ∧ Forall2 (Forall2 (R (concat (gc g)))) (gc g) (gv g) ∧ Forall2 (R (concat (gc g))) (concat (gc g)) (gz g).
  Lemma InvA_lens g : InvA g → map length (gc g) = lens ∧ map length (gv g) = lens.
  Proof using Type. intros (H1 & H2 & _). split; [done|]. by rewrite (Forall2_lens _ _ _ H2). Qed.
  Lemma reload_A p g : InvA g → (p < length lens)%nat → InvA (reload p g).
  Proof using Type.
    intros (H1 & H2 & H3) Hp. split_and!; [done| |done]. cbn.
    rewrite <- H1, map_length in Hp. destruct (lookup_lt_is_Some_2 (gc g) p Hp) as [page Hpg]. rewrite Hpg. cbn.
    rewrite <- (list_insert_id (gc g) p page Hpg) at 2. apply Forall2_insert; [done|].
    apply Forall_Forall2_diag. apply list.Forall_forall. intros. apply R_refl.
  Qed.
  Lemma step_A p q r es g g' : locate lens r = Some (p, q) → InvA g → cell_step missing p q r es g g' → InvA g'.
  Proof using Type.
    intros Hloc (H1 & H2 & H3) (Hc & page & x & y & Hp & Hx & Hv & Hcase).
    unfold InvA. rewrite Hc. split; [done|].
    rewrite <- H1 in Hloc. destruct (locate_at (gc g) r p q Hloc) as (page0 & x0 & Hp0 & Hx0 & Hr0).
    assert (Hpp : Forall2 (R (concat (gc g))) page0 page) by (by eapply Forall2_lookup_lr).
    assert (Hxx : R (concat (gc g)) x0 x) by (by eapply Forall2_lookup_lr).
    assert (Hgo : R (concat (gc g)) x0 y → Forall2 (Forall2 (R (concat (gc g)))) (gc g) (gv g')).
    { intros HR. rewrite Hv. rewrite <- (list_insert_id (gc g) p page0 Hp0) at 2. apply Forall2_insert; [done|].
      rewrite <- (list_insert_id page0 q x0 Hx0). by apply Forall2_insert. }
    destruct (decide (x ∈ missing)) as [Hm|Hm].
    - destruct Hcase as [(j & _ & Hj & Hy & _ & Hz)|(-> & Hz & _)]; rewrite Hz.
      + assert (HR : R (concat (gc g)) x0 y).
        { right. split; [unfold miss; apply bool_decide_eq_true_2; by eapply R_missing|].
          destruct (Forall2_lookup_r _ _ _ _ _ H3 Hj) as (xj & Hxj & [->|[_ ?]]); [|done].
          apply known_in. split; [done|]. by eapply elem_of_list_lookup_2. }
        split; [by apply Hgo|]. rewrite <- (list_insert_id (concat (gc g)) r x0 Hr0) at 2. by apply Forall2_insert.
      + split; [by apply Hgo|done].
    - destruct Hcase as [-> Hz]. rewrite Hz. split; [by apply Hgo|done].
  Qed.

  Lemma locate_page r p q : locate lens r = Some (p, q) → (p < length lens)%nat.
  Proof using Type.
    clear. revert r p q. induction lens as [|l ls IH]; intros r p q H; [done|]. cbn [locate] in H.
    destruct (Nat.ltb r l); [injection H as <- <-; cbn; lia|]. destruct (locate ls (r - l)) as [[a b]|] eqn:E; [|done].
    injection H as <- <-. apply IH in E. cbn. lia.
  Qed.
  Definition good (s : state) (gs : list ghost) : Prop :=
    Forall InvA gs ∧ rel s gs ∧ Forall2 (λ g sp, repr (gc g) sp (gz g)) gs (sparse s).
  Lemma visit_A s gs r : (r < len)%nat → good s gs →
    ∃ p q s' gs', locate lens r = Some (p, q) ∧ visit leb missing len srcs (map gc gs) norms s r = Some s' ∧
      last s' = Some p ∧ good s' gs' ∧ map gc gs' = map gc gs ∧
      Forall2 (cell_step missing p q r (errs r)) (if decide (last s = Some p) then gs else map (reload p) gs) gs'.
  Proof using Hsrcs Hlay leb_total leb_trans leb_anti.
    intros Hr (HA & Hrel & Hsp).
    destruct (visit_spec leb missing lens srcs Hsrcs Hlay leb_total leb_trans leb_anti s gs r Hr) as (p & q & s' & gs' & Hloc & Hv & Hl & Hrel' & Hsp' & Hst).
    { eapply list.Forall_impl; [exact HA|]. apply InvA_lens. } { done. } { done. }
    exists p, q, s', gs'. split_and!; try done.
    - split_and!; try done.
      assert (HA1 : Forall InvA (if decide (last s = Some p) then gs else map (reload p) gs)).
      { case_decide; [done|]. apply list.Forall_forall. intros g (g0 & -> & Hg)%elem_of_list_fmap.
        apply reload_A; [by apply (proj1 (list.Forall_forall _ _) HA)|by eapply locate_page]. }
      revert HA1 Hst. generalize (if decide (last s = Some p) then gs else map (reload p) gs). intros l HA1 Hst.
      clear -HA1 Hst Hloc. induction Hst as [|g g' l l' H _ IH]; [constructor|]. apply list.Forall_cons in HA1 as [H1 H2].
      constructor; [by eapply step_A|by apply IH].
    - assert (E : map gc (if decide (last s = Some p) then gs else map (reload p) gs) = map gc gs) by (case_decide; [done|by rewrite map_map]).
      rewrite <- E. revert Hst. generalize (if decide (last s = Some p) then gs else map (reload p) gs). intros l Hst. clear -Hst.
      induction Hst as [|g g' l l' [H _] _ IH]; [done|]. cbn. by rewrite H, IH.
  Qed.
  Lemma visits_A rows : Forall (λ r, (r < len)%nat) rows → ∀ s gs, good s gs →
    ∃ s' gs', visits leb missing len srcs (map gc gs) norms s rows = Some s' ∧ good s' gs' ∧ map gc gs' = map gc gs.
  Proof using Hsrcs Hlay leb_total leb_trans leb_anti.
    induction 1 as [|r rows Hr _ IH]; intros s gs Hg; cbn [visits]; [by exists s, gs|].
    destruct (visit_A s gs r Hr Hg) as (p & q & s1 & gs1 & _ & -> & _ & Hg1 & Hc1 & _). cbn [mbind option_bind].
    rewrite <- Hc1. destruct (IH s1 gs1 Hg1) as (s' & gs' & Hv & Hg' & Hc'). exists s', gs'. split_and!; [done|done|]. done.
  Qed.

  (** ** when no page is visited again after another one *)
  Definition near (done_ : list nat) (xs zs : list A) : Prop := ∀ i x, xs !! i = Some x →
    if decide (x ∈ missing) then
      i ∈ done_ → ∃ j v, j ≠ i ∧ zs !! i = Some v ∧ zs !! j = Some v ∧ v ∈ xs ∧ v ∉ missing ∧
        ∀ k w, xs !! k = Some w → w ∉ missing → prefers leb missing cols i j k
    else zs !! i = Some x.
  Definition InvB (done_ seen : list nat) (g : ghost) : Prop :=
    InvA g ∧ concat (gv g) = gz g ∧ (∀ p, p ∉ seen → gv g !! p = gc g !! p) ∧
    (∀ r, r ∈ done_ → ∀ v, gz g !! r = Some v → v ∉ missing) ∧ (∀ r, r ∉ done_ → gz g !! r = concat (gc g) !! r) ∧ near done_ (concat (gc g)) (gz g).
  Definition reachable (g : ghost) : Prop := ∀ i x, concat (gc g) !! i = Some x → x ∈ missing →
    ∃ k w d, concat (gc g) !! k = Some w ∧ w ∉ missing ∧ distance leb missing cols i k = Some d.

  Lemma step_B done_ seen p q r g g' : locate lens r = Some (p, q) → (r < len)%nat → InvB done_ seen g → reachable g →
    cell_step missing p q r (errs r) g g' → InvB (r :: done_) (p :: seen) g'.
  Proof using Hsrcs Hlay leb_total leb_trans leb_anti.
    intros Hloc Hr (HA & Hvz & Hseen & Hdone & Hnot & Hnear) Hreach Hst.
    pose proof (step_A _ _ _ _ _ _ Hloc HA Hst) as HA'. destruct Hst as (Hc & page & x & y & Hp & Hx & Hv & Hcase).
    destruct (errs_spec leb missing leb_total leb_trans leb_anti len srcs r) as [Hel Hes]; [by apply srcs_len|done|].
    pose proof HA as (H1 & H2 & H3).
    assert (Hlocv : locate (map length (gv g)) r = Some (p, q)) by (rewrite (proj2 (InvA_lens g HA)); done).
    destruct (locate_at (gv g) r p q Hlocv) as (page' & x' & E1 & E2 & E3). rewrite Hp in E1. injection E1 as <-.
    rewrite Hx in E2. injection E2 as <-. rewrite Hvz in E3.
    assert (Hcat : concat (gv g') = <[r := y]> (gz g)).
    { rewrite Hv, (locate_insert (gv g) y r p q page Hlocv Hp). by rewrite Hvz. }
    assert (Hzr : (r < length (gz g))%nat) by (by eapply lookup_lt_Some).
    assert (Hseen' : ∀ p', p' ∉ p :: seen → gv g' !! p' = gc g' !! p').
    { intros p' [Hp1 Hp2]%not_elem_of_cons. rewrite Hc, <- Hseen by done. rewrite Hv. by apply list_lookup_insert_ne. }
    destruct (decide (x ∈ missing)) as [Hm|Hm].
    - (* a missing value: not visited before *)
      assert (Hrd : r ∉ done_) by (intros Hrd; by eapply Hdone).
      assert (Hx0 : concat (gc g) !! r = Some x) by (by rewrite <- Hnot).
      destruct Hcase as [(j & Hjr & Hj & Hy & (e & He & Hbest) & Hz)|(_ & _ & Hall)].
      2:{ exfalso. destruct (Hreach r x Hx0 Hm) as (k & w & d & Hk & Hw & Hd).
          assert (Hkl : (k < len)%nat) by (rewrite <- H1, sum_concat; by eapply lookup_lt_Some).
          apply Hw. eapply (Hall k d w); [intros ->; congruence| |].
          - by rewrite Hes, Hd.
          - pose proof (Hnear k w Hk) as Hn. by rewrite decide_False in Hn by done. }
      specialize (Hjr E3).
      assert (Hyx : y ∈ concat (gc g)).
      { destruct (Forall2_lookup_r _ _ _ _ _ H3 Hj) as (xj & Hxj & [->|[_ [_ ?]%known_in]]); [by eapply elem_of_list_lookup_2|done]. }
      assert (Hkeep : ∀ i v, gz g !! i = Some v → v ∉ missing → gz g' !! i = Some v).
      { intros i v Hi Hv'. rewrite Hz. rewrite list_lookup_insert_ne; [done|]. intros ->. congruence. }
      split_and!; [done|by rewrite Hcat, Hz|done| | |].
      + intros r' [->|Hr']%elem_of_cons v Hv'; rewrite Hz in Hv'.
        * rewrite list_lookup_insert in Hv' by done. by injection Hv' as <-.
        * rewrite list_lookup_insert_ne in Hv' by (intros ->; done). by eapply Hdone.
      + intros r' [Hr1 Hr2]%not_elem_of_cons. rewrite Hz, list_lookup_insert_ne by done. rewrite Hc. by apply Hnot.
      + rewrite Hc. intros i xi Hi. specialize (Hnear i xi Hi). case_decide as Hmi; [|by apply Hkeep].
        intros [->|Hid]%elem_of_cons.
        * exists j, y. split_and!; [done| |by apply Hkeep|done|done|].
          { rewrite Hz. by apply list_lookup_insert. }
          intros k w Hk Hw.
          assert (Hkl : (k < len)%nat) by (rewrite <- H1, sum_concat; by eapply lookup_lt_Some).
          assert (Hjl : (j < len)%nat). { rewrite <- Hel. by eapply lookup_lt_Some. }
          unfold prefers. rewrite Hes in He by done. injection He as <-.
          apply (Hbest k _ w); [intros ->; congruence|by apply Hes| |done].
          pose proof (λ H, Hbest k _ w H (Hes k Hkl)) as _. clear Hbest.
          destruct (decide (k ∈ done_)) as [Hkd|Hkd]; [|by rewrite Hnot].
          destruct (Forall2_lookup_l _ _ _ _ _ H3 Hk) as (z & Hzk & HR). destruct HR as [->|[Hb _]]; [done|].
          unfold miss in Hb. apply bool_decide_eq_true_1 in Hb. done.
        * destruct (Hnear Hid) as (j' & v & Hj' & Hi1 & Hi2 & Hv1 & Hv2 & Hpre). exists j', v. split_and!; try done; by apply Hkeep.
    - destruct Hcase as [-> Hz].
      split_and!; [done|rewrite Hcat, Hz; by apply list_insert_id|done| | |].
      + rewrite Hz. intros r' [->|Hr']%elem_of_cons v Hv'; [congruence|by eapply Hdone].
      + rewrite Hz, Hc. intros r' [Hr1 Hr2]%not_elem_of_cons. by apply Hnot.
      + rewrite Hc, Hz. intros i xi Hi. specialize (Hnear i xi Hi). case_decide as Hmi; [|done].
        intros [->|Hid]%elem_of_cons; [|by apply Hnear]. destruct (decide (r ∈ done_)) as [Hrd|Hrd]; [by apply Hnear|].
        exfalso. apply Hm. rewrite Hnot, Hi in E3 by done. by injection E3 as <-.
  Qed.

  Definition page_of (r : nat) : nat := default 0%nat (fst <$> locate lens r).
  Lemma visits_B rows : Forall (λ r, (r < len)%nat) rows → StronglySorted (λ a b, (page_of a ≤ page_of b)%nat) rows →
    ∀ s gs done_ seen, good s gs → Forall (InvB done_ seen) gs → Forall reachable gs →
    (∀ p, p ∈ seen → ∃ l, last s = Some l ∧ (p ≤ l)%nat) →
    (∀ r l, r ∈ rows → last s = Some l → (l ≤ page_of r)%nat) →
    ∃ s' gs' done' seen', visits leb missing len srcs (map gc gs) norms s rows = Some s' ∧ good s' gs' ∧ map gc gs' = map gc gs ∧
      Forall (InvB done' seen') gs' ∧ (∀ r, r ∈ rows ∨ r ∈ done_ → r ∈ done').
  Proof using Hsrcs Hlay leb_total leb_trans leb_anti.
    intros Hrows Hsort. induction Hsort as [|r rows Hsort IH Hfa]; intros s gs done_ seen Hg HB Hre Hseen Hlast; cbn [visits].
    { exists s, gs, done_, seen. split_and!; try done. intros r [H|H]; [by apply elem_of_nil in H|done]. }
    apply list.Forall_cons in Hrows as [Hr Hrows].
    destruct (visit_A s gs r Hr Hg) as (p & q & s1 & gs1 & Hloc & -> & Hl1 & Hg1 & Hc1 & Hst). cbn [mbind option_bind].
    assert (Hpr : page_of r = p) by (unfold page_of; by rewrite Hloc).
    assert (Egs : last s = Some p ∨ p ∉ seen).
    { destruct (decide (p ∈ seen)) as [Hin|]; [|by right]. left. destruct (Hseen p Hin) as (l & Hl & Hle). 
      pose proof (Hlast r l ltac:(left) Hl). rewrite Hl. f_equal. lia. }
    assert (Hst' : Forall2 (cell_step missing p q r (errs r)) gs gs1).
    { case_decide as E; [done|]. destruct Egs as [?|Hns]; [done|].
      assert (map (reload p) gs = gs) as Eid; [|by rewrite Eid in Hst].
      rewrite <- (map_id gs) at 2. apply map_ext_in. intros g Hgin%elem_of_list_In.
      destruct (proj1 (list.Forall_forall _ _) HB g Hgin) as (HA & _ & Hs & _). destruct g as [c v z]. unfold reload. cbn in *. f_equal.
      apply list_insert_id. rewrite Hs by done. destruct HA as (H1 & _). cbn in H1.
      destruct (lookup_lt_is_Some_2 c p) as [page Hpg]; [|by rewrite Hpg]. apply locate_page in Hloc. by rewrite <- H1, map_length in Hloc. }
    assert (HB1 : Forall (InvB (r :: done_) (p :: seen)) gs1).
    { clear -Hst' HB Hre Hloc Hr Hsrcs Hlay leb_total leb_trans leb_anti. induction Hst' as [|g g' gs gs1 H _ IH]; [constructor|].
      apply list.Forall_cons in HB as [HB1 HB2]. apply list.Forall_cons in Hre as [Hre1 Hre2]. constructor; [by eapply step_B|by apply IH]. }
    assert (Hre1 : Forall reachable gs1).
    { clear -Hst' Hre. induction Hst' as [|g g' gs gs1 [H _] _ IH]; [constructor|]. apply list.Forall_cons in Hre as [Hre1 Hre2].
      constructor; [|by apply IH]. unfold reachable in *. by rewrite H. }
    destruct (IH Hrows s1 gs1 (r :: done_) (p :: seen) Hg1 HB1 Hre1) as (s' & gs' & done' & seen' & Hv & Hg' & Hc' & HB' & Hd').
    { intros p' [->|Hp']%elem_of_cons; [by exists p|]. destruct (Hseen p' Hp') as (l & Hl & Hle). exists p. split; [done|].
      pose proof (Hlast r l ltac:(left) Hl). lia. }
    { intros r' l Hr' Hl. rewrite Hl1 in Hl. injection Hl as <-. rewrite <- Hpr. exact (proj1 (list.Forall_forall _ _) Hfa r' Hr'). }
    exists s', gs', done', seen'. rewrite <- Hc1. split_and!; [done|done|done|done|].
    intros r' [[->|H]%elem_of_cons|H]; apply Hd'; [right; left|by left|right; by right].
  Qed.

  (** ** the start *)
  Definition init (tgts : list pages) : list ghost := map (λ c, G c c (concat c)) tgts.
  Lemma init_good tgts : Forall (λ c, map length c = lens) tgts →
    good (MkState [] None (map (λ _, []) tgts) tgts) (init tgts) ∧ map gc (init tgts) = tgts ∧ Forall (InvB [] []) (init tgts).
  Proof using Type.
    intros Ht. assert (HA : Forall InvA (init tgts)).
    { unfold init. apply list.Forall_forall. intros g (c & -> & Hc)%elem_of_list_fmap. split_and!; cbn.
      - exact (proj1 (list.Forall_forall _ _) Ht c Hc).
      - apply Forall_Forall2_diag, list.Forall_forall. intros l _. apply Forall_Forall2_diag, list.Forall_forall. intros. apply R_refl.
      - apply Forall_Forall2_diag, list.Forall_forall. intros. apply R_refl. }
    split_and!.
    - split_and!; [done| |].
      + unfold rel. cbn. unfold init. rewrite map_map. cbn. by rewrite map_id.
      + cbn. unfold init. clear. induction tgts as [|c l IH]; cbn [map]; constructor; [|done]. split; [done|]. done.
    - unfold init. rewrite map_map. cbn. by rewrite map_id.
    - apply list.Forall_forall. intros g Hg. pose proof (proj1 (list.Forall_forall _ _) HA g Hg) as HAg.
      unfold init in Hg. apply elem_of_list_fmap in Hg as (c & -> & Hc). split_and!; cbn; try done.
      + intros r Hr. by apply elem_of_nil in Hr.
      + intros i x Hi. case_decide; [|done]. intros Hin. by apply elem_of_nil in Hin.
  Qed.
End final.

(** ** the index of the targets *)
Section index.
  Context {A : Type} `{EqDecision A} (leb : A → A → bool) (missing : list A).
  Notation pages := (list (list A)).

  Lemma index_rows_spec lens (cs : list pages) : cs ≠ [] → Forall (λ c, map length c = lens) cs →
    ∃ rows, index_rows cs = Some rows ∧ length rows = sum_list lens ∧
      ∀ r row, rows !! r = Some row → length row = length cs ∧ ∀ t c, cs !! t = Some c → row !! t = concat c !! r.
  Proof using Type.
    intros Hne Hlay. destruct cs as [|first cs0] eqn:Ecs; [done|]. unfold index_rows. cbn [head mbind option_bind].
    assert (Hfirst : map length first = lens) by (by apply list.Forall_cons in Hlay as [? _]).
    rewrite <- Ecs in *. clear Hne.
    assert (Hrow : ∀ p q l, lens !! p = Some l → (q < l)%nat → ∃ row, row_at cs p q = Some row ∧
      length row = length cs ∧ ∀ t c, cs !! t = Some c → row !! t = c !! p ≫= (λ page, page !! q)).
    { intros p q l Hl Hq. assert (H : ∃ row, row_at cs p q = Some row).
      { unfold row_at. apply mapM_is_Some_2. eapply list.Forall_impl; [exact Hlay|]. intros c Hc. cbn in Hc.
        rewrite <- Hc in Hl. change (map length c) with (length <$> c) in Hl. rewrite list_lookup_fmap in Hl.
        unfold Nearest.pages in *. destruct (c !! p) as [page|] eqn:Hp; cbn in Hl; [|discriminate Hl]. injection Hl as <-.
        unfold compose. rewrite Hp. cbn [mbind option_bind]. by apply lookup_lt_is_Some_2. }
      destruct H as [row Hr]. exists row. split; [done|]. unfold row_at in Hr. apply mapM_Some in Hr.
      split; [symmetry; by eapply Forall2_length|]. intros t c Ht. destruct (Forall2_lookup_l _ _ _ _ _ Hr Ht) as (x & Hx & Hc). cbn in Hc.
      rewrite Hx. by rewrite <- Hc. }
    assert (Hpg : ∃ RP, mapM (λ p, mapM (row_at cs p) (seq 0 (length (default [] (first !! p))))) (seq 0 (length first)) = Some RP).
    { apply mapM_is_Some_2. apply list.Forall_forall. intros p Hp%elem_of_seq.
      destruct (lookup_lt_is_Some_2 first p) as [page Hpp]; [lia|]. unfold compose. unfold Nearest.pages in *. rewrite Hpp. cbn [default from_option].
      apply mapM_is_Some_2. apply list.Forall_forall. intros q Hq%elem_of_seq. unfold compose.
      destruct (Hrow p q (length page)) as (row & -> & _); [|cbn in Hq; unfold id in Hq; lia|done].
      rewrite <- Hfirst. change (map length) with (fmap length : list (list A) → list nat). by rewrite list_lookup_fmap, Hpp. }
    destruct Hpg as [RP HRP]. rewrite HRP. exists (concat RP). split; [done|]. apply mapM_Some in HRP.
    assert (HlenRP : map length RP = lens).
    { rewrite <- Hfirst. apply list_eq. intros p.
      change (map length RP) with (length <$> RP). change (map length first) with (length <$> first). rewrite !list_lookup_fmap.
      destruct (first !! p) as [page|] eqn:Hp.
      - assert (Hs : seq 0 (length first) !! p = Some p) by (apply lookup_seq; split; [done|by eapply lookup_lt_Some]).
        destruct (Forall2_lookup_l _ _ _ _ _ HRP Hs) as (rp & -> & Hm). cbn. f_equal. rewrite Hp in Hm. cbn in Hm.
        apply mapM_Some in Hm. apply Forall2_length in Hm. by rewrite seq_length in Hm.
      - rewrite lookup_ge_None_2; [done|]. apply Forall2_length in HRP. rewrite seq_length in HRP. apply lookup_ge_None in Hp. lia. }
    split; [by rewrite <- sum_concat, HlenRP|]. intros r row Hr.
    assert (Hrl : (r < sum_list lens)%nat) by (rewrite <- HlenRP, sum_concat; by eapply lookup_lt_Some).
    destruct (locate_Some lens r Hrl) as [[p q] Hloc]. pose proof Hloc as HlocRP. rewrite <- HlenRP in HlocRP.
    destruct (locate_at RP r p q HlocRP) as (rp & row' & Hrp & Hrow' & E). rewrite Hr in E. injection E as <-.
    destruct (Forall2_lookup_r _ _ _ _ _ HRP Hrp) as (p' & Hp' & Hm). apply lookup_seq in Hp' as [-> Hp'].
    apply mapM_Some in Hm. destruct (Forall2_lookup_r _ _ _ _ _ Hm Hrow') as (q' & Hq' & Hra). apply lookup_seq in Hq' as [-> Hq']. cbn in Hra, Hq'.
    destruct (lookup_lt_is_Some_2 first p Hp') as [page Hpp]. rewrite Hpp in Hq'. cbn in Hq'.
    destruct (Hrow p q (length page)) as (row2 & E2 & Hl2 & Ht2); [|done|].
    { rewrite <- Hfirst. change (map length first) with (length <$> first). by rewrite list_lookup_fmap, Hpp. }
    rewrite Hra in E2. injection E2 as <-. split; [done|]. intros t c Ht. rewrite (Ht2 t c Ht).
    pose proof (proj1 (list.Forall_forall _ _) Hlay c (elem_of_list_lookup_2 _ _ _ Ht)) as Hc. cbn in Hc.
    rewrite <- Hc in Hloc. destruct (locate_at c r p q Hloc) as (pg & x & G1 & G2 & G3). rewrite G1, G3. exact G2.
  Qed.

  Definition places (rows : list (list A)) (k : list A) : list nat := filter (λ r, rows !! r = Some k) (seq 0 (length rows)).
  Lemma index_spec (rows : list (list A)) : NoDup (index rows).*1 ∧ ∀ k is_, (k, is_) ∈ index rows ↔ k ∈ rows ∧ is_ = places rows k.
  Proof using Type.
    assert (H : let d := fold_left (λ (d : list (list A * list nat) * nat) row, (dset d.1 row (dget_or d.1 row [] ++ [d.2]), S d.2)) rows ([], 0%nat) in
      d.2 = length rows ∧ NoDup d.1.*1 ∧ ∀ k, dget d.1 k = if decide (k ∈ rows) then Some (places rows k) else None).
    { induction rows as [|row rows IH] using rev_ind; [split_and!; [done|constructor|done]|].
      rewrite fold_left_app. cbn [fold_left]. destruct (fold_left _ rows _) as [d n]. cbn [fst snd] in *. destruct IH as (-> & Hnd & Hget).
      assert (Hpl : ∀ k, places (rows ++ [row]) k = places rows k ++ if decide (row = k) then [length rows] else []).
      { intros k. unfold places. rewrite app_length. cbn [length]. rewrite Nat.add_1_r, seq_S, list.filter_app. f_equal.
        - assert (Hb : Forall (λ r, (r < length rows)%nat) (seq 0 (length rows))) by (apply list.Forall_forall; intros r Hr%elem_of_seq; lia).
          induction Hb as [|r l Hr _ IHl]; [done|]. rewrite !filter_cons, lookup_app_l by done. by rewrite IHl.
        - rewrite Nat.add_0_l, filter_cons, filter_nil, lookup_app_r, Nat.sub_diag by lia. change ([row] !! 0%nat) with (Some row).
          destruct (decide (row = k)) as [->|Hne]; [by rewrite decide_True|]. rewrite decide_False; [done|]. congruence. }
      split_and!; [rewrite app_length; cbn; lia|by apply dset_NoDup|].
      intros k. rewrite dget_dset, Hpl. destruct (decide (k = row)) as [->|Hne].
      - rewrite (decide_True (P := row ∈ rows ++ [row])) by (rewrite elem_of_app, elem_of_list_singleton; by right).
        rewrite (decide_True (P := row = row)) by done. unfold dget_or. rewrite Hget. case_decide as E; [done|]. cbn. f_equal.
        unfold places. assert (filter (λ r, rows !! r = Some row) (seq 0 (length rows)) = []) as ->; [|done].
        destruct (filter _ _) as [|y l] eqn:Ef; [done|]. exfalso. apply E.
        assert (Hy : y ∈ filter (λ r, rows !! r = Some row) (seq 0 (length rows))) by (rewrite Ef; left).
        apply elem_of_list_filter in Hy as [Hy _]. by eapply elem_of_list_lookup_2.
      - rewrite Hget, (decide_False (P := row = k)), app_nil_r by congruence.
        destruct (decide (k ∈ rows)); [rewrite decide_True; [done|rewrite elem_of_app; by left]|].
        rewrite decide_False; [done|]. rewrite elem_of_app, elem_of_list_singleton. intros [?|?]; done. }
    unfold index. destruct H as (_ & Hnd & Hget). set (d := (fold_left _ rows _).1) in *. split; [done|]. intros k is_.
    pose proof (dget_Some d k is_ Hnd) as Hs. specialize (Hget k). split.
    - intros Hin. apply Hs in Hin. rewrite Hget in Hin. case_decide; [|done]. by injection Hin as <-.
    - intros [Hk ->]. apply Hs. by rewrite Hget, decide_True.
  Qed.
  Lemma places_in rows k r : r ∈ places rows k ↔ rows !! r = Some k.
  Proof using Type.
    unfold places. rewrite elem_of_list_filter, elem_of_seq. split; [tauto|]. intros H. split; [done|].
    apply lookup_lt_Some in H. lia.
  Qed.
  Lemma visited_in rows r : r ∈ concat (Nearest.order leb (missing_index missing rows)) ↔ ∃ k, rows !! r = Some k ∧ Exists (λ m, m ∈ k) missing.
  Proof using Type.
    unfold Nearest.order. cbv zeta. rewrite elem_of_list_In, in_concat. destruct (index_spec rows) as [_ Hidx]. split.
    - intros (is_ & Hin & Hr). apply in_map_iff in Hin as ([k i'] & <- & Hin). cbn in Hr. apply elem_of_list_In in Hin, Hr.
      rewrite StatsProofs.py_sort_perm in Hin. unfold missing_index in Hin. apply elem_of_list_filter in Hin as [Hm Hin].
      apply Hidx in Hin as [_ ->]. exists k. by rewrite <- places_in.
    - intros (k & Hk & Hm). exists (places rows k). split; [|apply elem_of_list_In; by apply places_in].
      apply in_map_iff. exists (k, places rows k). split; [done|]. apply elem_of_list_In. rewrite StatsProofs.py_sort_perm.
      unfold missing_index. apply elem_of_list_filter. split; [done|]. apply Hidx. split; [by eapply elem_of_list_lookup_2|done].
  Qed.
End index.

(** ** the table *)
Section table.
  Context {N A : Type} `{EqDecision N, EqDecision A} (leb : A → A → bool) (missing : list A).
  Notation pages := (list (list A)).
  Notation miss := (miss missing).
  Context (leb_total : ∀ x y, leb x y = true ∨ leb y x = true) (leb_trans : ∀ x y z, leb x y = true → leb y z = true → leb x z = true)
    (leb_anti : ∀ x y, leb x y = true → leb y x = true → x = y).

  Lemma targets_columns (T : list (N * pages)) targets : NoDup T.*1 → targets = filter (λ n, n ∈ targets) T.*1 →
    mapM (dget T) targets = Some (map snd (filter (λ c : N * pages, c.1 ∈ targets) T)).
  Proof using Type.
    intros Hnd Hord. rewrite Hord at 1. clear Hord.
    assert (H : ∀ l : list (N * pages), (∀ n c, (n, c) ∈ l → dget T n = Some c) →
      mapM (dget T) (filter (λ n, n ∈ targets) l.*1) = Some (map snd (filter (λ c : N * pages, c.1 ∈ targets) l))).
    { induction l as [|[n c] l IH]; intros Hl; [done|]. rewrite fmap_cons. cbn [fst]. rewrite !filter_cons. cbn [fst].
      destruct (decide (n ∈ targets)); [|apply IH; intros; apply Hl; by right].
      cbn [mapM map snd]. rewrite (Hl n c) by left. cbn [mbind option_bind]. rewrite IH; [done|]. intros. apply Hl. by right. }
    apply H. intros n c Hin. by apply dget_Some.
  Qed.
  Lemma new_table_spec (P : pages → pages → Prop) (T : list (N * pages)) targets : NoDup T.*1 → ∀ cols,
    Forall2 P (map snd (filter (λ c : N * pages, c.1 ∈ targets) T)) cols →
    (new_table T targets cols).*1 = T.*1 ∧
    ∀ n c, dget T n = Some c → ∃ c', dget (new_table T targets cols) n = Some c' ∧ if decide (n ∈ targets) then P c c' else c' = c.
  Proof using Type.
    induction T as [|[n c] T IH]; intros Hnd cols H; [done|]. rewrite fmap_cons in Hnd. cbn [fst] in Hnd.
    apply list.NoDup_cons in Hnd as [Hn Hnd]. rewrite filter_cons in H. cbn [fst] in H. cbn [new_table].
    destruct (decide (n ∈ targets)) as [Ht|Ht].
    - cbn [map snd] in H. apply Forall2_cons_inv_l in H as (c' & cols' & Hp & H & ->). destruct (IH Hnd cols' H) as [IH1 IH2].
      split; [rewrite !fmap_cons; cbn [fst]; by rewrite IH1|]. intros m d. cbn [dget]. destruct (decide (m = n)) as [->|Hne].
      + intros [= <-]. exists c'. by rewrite decide_True.
      + apply IH2.
    - destruct (IH Hnd cols H) as [IH1 IH2].
      split; [rewrite !fmap_cons; cbn [fst]; by rewrite IH1|]. intros m d. cbn [dget]. destruct (decide (m = n)) as [->|Hne].
      + intros [= <-]. exists c. by rewrite decide_False.
      + apply IH2.
  Qed.
  Lemma table_len_spec (T : list (N * pages)) lens : T ≠ [] → Forall (λ c, map length c.2 = lens) T → table_len T = sum_list lens.
  Proof using Type.
    intros Hne H. assert (Hle : (table_len T ≤ sum_list lens)%nat ∧ (T ≠ [] → table_len T = sum_list lens)).
    { clear Hne. induction H as [|c T Hc _ [IH1 IH2]]; [cbn; split; [lia|done]|]. cbn [table_len fold_right] in *. fold (table_len T) in *.
      rewrite <- sum_concat, Hc. split; [lia|]. intros _. lia. }
    by apply Hle.
  Qed.

  (** the assumptions on a table *)
  Record fine (T : list (N * pages)) (sources targets : list N) (lens : list nat) : Prop := {
    fine_names : NoDup T.*1;
    fine_lens : Forall (λ c, map length c.2 = lens) T;
    fine_sources : sources ≠ [] ∧ ∀ n, n ∈ sources → n ∈ T.*1;
    fine_targets : targets ≠ [] ∧ targets = filter (λ n, n ∈ targets) T.*1 }.
  Definition source_values (T : list (N * pages)) (sources : list N) : list (list A) :=
    map (λ n, concat (default [] (dget T n))) sources.

  Section fixed.
    Context (T : list (N * pages)) (sources targets : list N) (lens : list nat) (Hfine : fine T sources targets lens).
    Notation cols := (source_values T sources).
    Lemma sources_Some : ∃ srcs, mapM (dget T) sources = Some srcs ∧ srcs ≠ [] ∧ Forall (λ c, map length c = lens) srcs ∧ map (λ c, concat c) srcs = cols.
    Proof using Hfine.
      destruct Hfine as [Hnd Hl [Hs1 Hs2] _].
      assert (H : ∀ l : list N, (∀ n, n ∈ l → n ∈ T.*1) → ∃ srcs, mapM (dget T) l = Some srcs ∧ length srcs = length l ∧
        Forall (λ c, map length c = lens) srcs ∧ map (λ c, concat c) srcs = source_values T l).
      { induction l as [|n l IH]; intros Hl0; [by exists []|]. destruct IH as (srcs & E & E1 & E2 & E3); [intros; apply Hl0; by right|].
        assert (Hn : n ∈ T.*1) by (apply Hl0; left). apply elem_of_list_fmap in Hn as ([n' c] & -> & Hin). cbn [fst] in *.
        assert (Hg : dget T n' = Some c) by (by apply dget_Some). exists (c :: srcs). cbn [mapM]. rewrite Hg. cbn [mbind option_bind]. rewrite E.
        split_and!; [done|cbn; by rewrite E1| |].
        - constructor; [|done]. exact (proj1 (list.Forall_forall _ _) Hl _ Hin).
        - cbn [map]. rewrite E3. unfold source_values. cbn [map]. by rewrite Hg. }
      destruct (H sources Hs2) as (srcs & E & E1 & E2 & E3). exists srcs. split_and!; try done. intros ->. destruct sources; done.
    Qed.
    Lemma run_columns (P : pages → pages → Prop) srcs tgts rows :
      mapM (dget T) sources = Some srcs → mapM (dget T) targets = Some tgts → index_rows tgts = Some rows →
      (∃ s gs, visits leb missing (sum_list lens) srcs tgts (map (λ c, map (norm leb missing (concat c)) (concat c)) srcs)
          (MkState [] None (map (λ _, []) tgts) tgts) (concat (Nearest.order leb (missing_index missing rows))) = Some s ∧
        rel s gs ∧ map gc gs = tgts ∧ Forall (λ g, P (gc g) (gv g)) gs) →
      ∃ T', nearest leb missing T sources targets = Some T' ∧ T'.*1 = T.*1 ∧
        ∀ n c, dget T n = Some c → ∃ c', dget T' n = Some c' ∧ if decide (n ∈ targets) then P c c' else c' = c.
    Proof using Hfine.
      intros Es Et Er (s & gs & Hv & Hrel & Hgc & HP). destruct Hfine as [Hnd Hl [Hs1 Hs2] [Ht1 Ht2]].
      pose proof (targets_columns T targets Hnd Ht2) as Etc. rewrite Et in Etc. injection Etc as Etc.
      unfold nearest. unfold Nearest.pages in *. rewrite Es. cbn [mbind option_bind]. rewrite Et. cbn [mbind option_bind]. rewrite Er. cbn [mbind option_bind]. cbv zeta.
      rewrite (table_len_spec T lens); [|intros ->; by destruct targets|done].
      match goal with |- context [MkState [] None _ ?l] => change l with (map snd (filter (λ c : N * list (list A), c.1 ∈ targets) T)) end. rewrite <- Etc.
      assert (map (λ _ : N, @nil (nat * A)) targets = map (λ _, []) tgts) as ->.
      { assert (Hlen : length targets = length tgts) by (apply mapM_Some in Et; by eapply Forall2_length).
        clear -Hlen. revert tgts Hlen. induction targets as [|n l IH]; intros [|c tg] Hlen; try done. cbn. f_equal. apply IH. by injection Hlen. }
      rewrite Hv. cbn [mbind option_bind]. eexists. split; [done|].
      rewrite (rel_save _ _ Hrel). apply new_table_spec; [done|]. rewrite <- Etc, <- Hgc.
      clear -HP. induction HP as [|g gs H _ IH]; [constructor|]. cbn [map]. by constructor.
    Qed.

    Lemma setup : ∃ srcs tgts rows, mapM (dget T) sources = Some srcs ∧ srcs ≠ [] ∧ Forall (λ c, map length c = lens) srcs ∧
      map (λ c, concat c) srcs = cols ∧ mapM (dget T) targets = Some tgts ∧ tgts ≠ [] ∧ Forall (λ c, map length c = lens) tgts ∧
      (∀ c, c ∈ tgts → ∃ n, n ∈ targets ∧ dget T n = Some c) ∧ length tgts = length targets ∧
      index_rows tgts = Some rows ∧ length rows = sum_list lens ∧
      (∀ r row, rows !! r = Some row → length row = length tgts ∧ ∀ t c, tgts !! t = Some c → row !! t = concat c !! r) ∧
      Forall (λ r, (r < sum_list lens)%nat) (concat (Nearest.order leb (missing_index missing rows))).
    Proof using Hfine.
      destruct sources_Some as (srcs & Es & Hs1 & Hs2 & Hs3). destruct Hfine as [Hnd Hl _ [Ht1 Ht2]].
      pose proof (targets_columns T targets Hnd Ht2) as Et. set (tgts := map snd _) in *.
      assert (Hlen : length tgts = length targets) by (pose proof Et as Em; apply mapM_Some in Em; symmetry; by eapply Forall2_length).
      assert (Htn : ∀ c, c ∈ tgts → ∃ n, n ∈ targets ∧ dget T n = Some c).
      { intros c ([n c'] & -> & [Hn Hin]%elem_of_list_filter)%elem_of_list_fmap. exists n. split; [done|]. by apply dget_Some. }
      assert (Htl : Forall (λ c, map length c = lens) tgts).
      { apply list.Forall_forall. intros c ([n c'] & -> & [Hn Hin]%elem_of_list_filter)%elem_of_list_fmap. exact (proj1 (list.Forall_forall _ _) Hl _ Hin). }
      assert (Htne : tgts ≠ []) by (intros E; rewrite E in Hlen; by destruct targets).
      destruct (index_rows_spec lens tgts Htne Htl) as (rows & Er & Hrl & Hrt).
      exists srcs, tgts, rows. split_and!; try done. apply list.Forall_forall. intros r (k & Hk & _)%visited_in. rewrite <- Hrl. by eapply lookup_lt_Some.
    Qed.

    (** missing values are replaced by known ones of the column, or left *)
    Theorem nearest_filled : ∃ T', nearest leb missing T sources targets = Some T' ∧ T'.*1 = T.*1 ∧
      ∀ n c, dget T n = Some c → ∃ c', dget T' n = Some c' ∧
        if decide (n ∈ targets) then map length c' = map length c ∧ filled_from miss (concat c) (concat c') else c' = c.
    Proof using Hfine leb_total leb_trans leb_anti.
      destruct setup as (srcs & tgts & rows & Es & Hs1 & Hs2 & Hs3 & Et & Ht1 & Ht2 & Ht3 & Ht4 & Er & Hr1 & Hr2 & Hr3).
      eapply run_columns; [done|done|done|]. destruct (init_good leb missing lens srcs tgts Ht2) as (Hg & Hgc & _).
      destruct (visits_A leb missing lens srcs Hs1 Hs2 leb_total leb_trans leb_anti _ Hr3 _ _ Hg) as (s' & gs' & Hv & (HA & Hrel & _) & Hgc').
      exists s', gs'. rewrite Hgc in Hv, Hgc'. split_and!; [done|done|done|].
      eapply list.Forall_impl; [exact HA|]. intros g (H1 & H2 & _). split; [by eapply Forall2_lens|]. by apply Forall2_pages.
    Qed.

    (** every missing value has a row with a known value at a finite distance *)
    Definition within_reach : Prop := ∀ n c i x, n ∈ targets → dget T n = Some c → concat c !! i = Some x → x ∈ missing →
      ∃ k w d, concat c !! k = Some w ∧ w ∉ missing ∧ distance leb missing cols i k = Some d.
    Theorem nearest_sorted : within_reach →
      (∀ tgts rows, mapM (dget T) targets = Some tgts → index_rows tgts = Some rows →
         (∀ r row, rows !! r = Some row → length row = length targets) →
         StronglySorted (λ a b, (page_of lens a ≤ page_of lens b)%nat) (concat (Nearest.order leb (missing_index missing rows)))) →
      ∃ T', nearest leb missing T sources targets = Some T' ∧ T'.*1 = T.*1 ∧
      ∀ n c, dget T n = Some c → ∃ c', dget T' n = Some c' ∧
        if decide (n ∈ targets) then map length c' = map length c ∧ filled_nearest leb missing cols (concat c) (concat c') else c' = c.
    Proof using Hfine leb_total leb_trans leb_anti.
      intros Hreach Hsort.
      destruct setup as (srcs & tgts & rows & Es & Hs1 & Hs2 & Hs3 & Et & Ht1 & Ht2 & Ht3 & Ht4 & Er & Hr1 & Hr2 & Hr3).
      eapply run_columns; [done|done|done|]. destruct (init_good leb missing lens srcs tgts Ht2) as (Hg & Hgc & HB).
      destruct (visits_B leb missing lens srcs Hs1 Hs2 leb_total leb_trans leb_anti _ Hr3) with
        (s := MkState [] None (map (λ _, @nil (nat * A)) tgts) tgts) (gs := init tgts) (done_ := @nil nat) (seen := @nil nat)
        as (s' & gs' & done' & seen' & Hv & (HA & Hrel & _) & Hgc' & HB' & Hd').
      { apply (Hsort tgts rows Et Er). intros r row Hr. rewrite <- Ht4. by apply (Hr2 r row). }
      { done. } { done. }
      { apply list.Forall_forall. intros g (c & -> & Hc)%elem_of_list_fmap. intros i x Hi Hx. cbn in *. destruct (Ht3 c Hc) as (n & Hn & Hg').
        destruct (Hreach n c i x Hn Hg' Hi Hx) as (k & w & d & H1 & H2 & H3). exists k, w, d. by rewrite Hs3. }
      { intros p Hp. by apply elem_of_nil in Hp. } { intros r l _ H. done. }
      exists s', gs'. rewrite Hgc in Hv, Hgc'. split_and!; [done|done|done|].
      apply list.Forall_forall. intros g Hgin. destruct (proj1 (list.Forall_forall _ _) HB' g Hgin) as ((H1 & H2 & H3) & Hvz & _ & _ & _ & Hnear).
      split; [by eapply Forall2_lens|]. rewrite Hvz. split; [symmetry; by eapply Forall2_length|].
      intros i x Hi. specialize (Hnear i x Hi). case_decide as Hm; [|done].
      rewrite Hs3 in Hnear. apply Hnear. apply Hd'. left. apply visited_in.
      assert (Hgt : gc g ∈ tgts) by (rewrite <- Hgc'; by apply elem_of_list_fmap_1).
      apply elem_of_list_lookup in Hgt as [t Ht].
      destruct (lookup_lt_is_Some_2 rows i) as [row Hrow].
      { rewrite Hr1, <- H1, sum_concat. by eapply lookup_lt_Some. }
      exists row. split; [done|]. apply list.Exists_exists. exists x. split; [done|].
      destruct (Hr2 i row Hrow) as [_ Hcell]. specialize (Hcell t _ Ht). rewrite Hi in Hcell. by eapply elem_of_list_lookup_2.
    Qed.

    (** columns of one page *)
    Theorem nearest_page l : lens = [l] → within_reach → ∃ T', nearest leb missing T sources targets = Some T' ∧ T'.*1 = T.*1 ∧
      ∀ n c, dget T n = Some c → ∃ c', dget T' n = Some c' ∧
        if decide (n ∈ targets) then map length c' = map length c ∧ filled_nearest leb missing cols (concat c) (concat c') else c' = c.
    Proof using Hfine leb_total leb_trans leb_anti.
      intros Hl Hreach. apply nearest_sorted; [done|]. intros tgts rows _ _ _.
      assert (H : ∀ r, page_of lens r = 0%nat).
      { intros r. rewrite Hl. unfold page_of. cbn [locate]. destruct (Nat.ltb r l); done. }
      generalize (concat (Nearest.order leb (missing_index missing rows))). induction l0 as [|a l0 IH]; constructor; [done|].
      apply list.Forall_forall. intros b _. by rewrite !H.
    Qed.
    (** one target and one value which stands for none *)
    Theorem nearest_one m : missing = [m] → length targets = 1%nat → within_reach →
      ∃ T', nearest leb missing T sources targets = Some T' ∧ T'.*1 = T.*1 ∧
      ∀ n c, dget T n = Some c → ∃ c', dget T' n = Some c' ∧
        if decide (n ∈ targets) then map length c' = map length c ∧ filled_nearest leb missing cols (concat c) (concat c') else c' = c.
    Proof using Hfine leb_total leb_trans leb_anti.
      intros Hm H1 Hreach. apply nearest_sorted; [done|]. intros tgts rows Et Er Hlen. rewrite H1 in Hlen.
      assert (Hkey : ∀ e, e ∈ missing_index missing rows → e = ([m], places rows [m])).
      { intros [k is_] Hin. unfold missing_index in Hin. apply elem_of_list_filter in Hin as [Hex Hin]. cbn in Hex.
        apply index_spec in Hin as [Hk ->]. apply elem_of_list_lookup in Hk as [r Hr]. pose proof (Hlen r k Hr) as Hl.
        rewrite Hm in Hex. apply Exists_cons in Hex as [Hin|Hex]; [|by apply Exists_nil in Hex].
        destruct k as [|y [|? ?]]; try done. apply elem_of_list_singleton in Hin. by subst y. }
      assert (Hshort : missing_index missing rows = [] ∨ missing_index missing rows = [([m], places rows [m])]).
      { assert (Hnd : NoDup (missing_index missing rows)).
        { unfold missing_index. apply list.NoDup_filter. eapply NoDup_fmap_1, index_spec. }
        destruct (missing_index missing rows) as [|a [|b l]].
        - by left.
        - right. by rewrite (Hkey a) by left.
        - exfalso. rewrite (Hkey a) in Hnd by left. rewrite (Hkey b) in Hnd by (right; left).
          apply list.NoDup_cons in Hnd as [Hn _]. apply Hn. left. }
      destruct Hshort as [->| ->]; [cbn; constructor|]. unfold Nearest.order. cbn [map concat snd py_sort fold_right py_insert]. rewrite app_nil_r.
      unfold places.
      assert (Hrl : length rows = sum_list lens).
      { destruct setup as (? & tg & rw & _ & _ & _ & _ & E1 & _ & _ & _ & _ & E2 & E3 & _). rewrite Et in E1. injection E1 as <-. rewrite Er in E2. by injection E2 as <-. }
      assert (Hs : ∀ n a, (a + n ≤ sum_list lens)%nat → StronglySorted (λ a b, (page_of lens a ≤ page_of lens b)%nat) (filter (λ r, rows !! r = Some [m]) (seq a n))).
      { induction n as [|n IH]; intros a Ha; cbn [seq]; [constructor|]. rewrite filter_cons. case_decide; [|apply IH; lia].
        constructor; [apply IH; lia|]. apply list.Forall_forall. intros b [_ Hb%elem_of_seq]%elem_of_list_filter.
        destruct (locate_Some lens a) as [[p q] Ea]; [lia|]. destruct (locate_Some lens b) as [[p' q'] Eb]; [lia|].
        unfold page_of. rewrite Ea, Eb. cbn. eapply (locate_mono lens a b); [lia|done|done]. }
      apply Hs. lia.
    Qed.
  End fixed.
End table.
