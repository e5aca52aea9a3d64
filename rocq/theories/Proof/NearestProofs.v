(** Nearest neighbour imputation. *)
From Coq Require Import QArith Qabs Sorted Lqa.
From Verif.Spec Require Export Impute Neighbour.
From Verif.Model Require Import Nearest.
From Verif.Proof Require Import DictLemmas.
From Verif.Proof Require StatsProofs.

(** ** argmin *)
Section argmin.
  Notation err := (option Q).
  Lemma err_ltb_dist a b : err_ltb a b = true ↔ dist_lt a b.
  Proof.
    destruct a as [x|], b as [y|]; cbn; try done. rewrite negb_true_iff. split; intros H.
    - apply Qnot_le_lt. intros H'. apply Qle_bool_iff in H'. congruence.
    - apply not_true_is_false. intros H'. apply Qle_bool_iff in H'. lra.
  Qed.
  Lemma err_eqb_dist a b : err_eqb a b = true ↔ ¬ dist_lt a b ∧ ¬ dist_lt b a.
  Proof.
    destruct a as [x|], b as [y|]; cbn; [|split; [done|tauto]|split; [done|tauto]|split; [tauto|done]].
    rewrite Qeq_bool_iff. split; [intros H; split; lra|]. intros [H1 H2]. lra.
  Qed.
  Lemma dist_lt_trans (a b c : err) : dist_lt a b → dist_lt b c → dist_lt a c.
  Proof. destruct a, b, c; cbn; try done. lra. Qed.
  Lemma dist_nlt_trans (a b c : err) : ¬ dist_lt b a → ¬ dist_lt c b → ¬ dist_lt c a.
  Proof. destruct a, b, c; cbn; try done; try tauto. intros H1 H2 H3. apply H2. lra. Qed.
  Lemma dist_lt_irrefl (a : err) : ¬ dist_lt a a.
  Proof. destruct a; cbn; [lra|tauto]. Qed.

  Lemma err_min_spec l : l ≠ [] → ∃ m, err_min l = Some m ∧ m ∈ l ∧ ∀ e, e ∈ l → ¬ dist_lt e m.
  Proof.
    destruct l as [|e l]; [done|]. intros _. cbn [err_min]. eexists. split; [done|].
    revert e. induction l as [|x l IH]; intros e; cbn [fold_left].
    - split; [left|]. intros e' ->%elem_of_list_singleton. apply dist_lt_irrefl.
    - destruct (IH (if err_ltb x e then x else e)) as [Hin Hmin]. set (m := fold_left _ l _) in *. split.
      + apply elem_of_cons in Hin as [E|Hin]; [|by right; right]. rewrite E. destruct (err_ltb x e); [right; left|left].
      + assert (H : ¬ dist_lt (if err_ltb x e then x else e) m) by (apply Hmin; left).
        destruct (err_ltb x e) eqn:E.
        * apply err_ltb_dist in E. intros e' [->|[->|Hin']%elem_of_cons]%elem_of_cons; [|done|by apply Hmin; right].
          intros Hlt. apply H. by eapply dist_lt_trans.
        * assert (En : ¬ dist_lt x e) by (rewrite <- err_ltb_dist; by rewrite E).
          intros e' [->|[->|Hin']%elem_of_cons]%elem_of_cons; [done| |by apply Hmin; right].
          by eapply dist_nlt_trans.
  Qed.
  Lemma argmin_spec l : l ≠ [] → ∃ i e, argmin l = Some i ∧ l !! i = Some e ∧
    ∀ j e', l !! j = Some e' → ¬ dist_lt e' e ∧ ((j < i)%nat → dist_lt e e').
  Proof.
    intros Hl. unfold argmin. destruct (err_min_spec l Hl) as (m & -> & Hin & Hmin). cbn.
    destruct (list_find (λ e, err_eqb e m = true) l) as [[i e]|] eqn:E.
    - cbn. apply list_find_Some in E as (He & Hm & Hb). exists i, e. split_and!; [done|done|].
      apply err_eqb_dist in Hm as [Hm1 Hm2]. intros j e' Hj.
      assert (Hle : ¬ dist_lt e' m) by (apply Hmin; by eapply elem_of_list_lookup_2). split.
      + intros H. apply Hle. destruct e', e, m; cbn in *; try tauto; try lra.
      + intros Hlt. specialize (Hb j e' Hj Hlt). rewrite err_eqb_dist in Hb.
        destruct e', e, m; cbn in *; try tauto; try lra.
    - exfalso. apply list_find_None in E. pose proof (proj1 (list.Forall_forall _ _) E m Hin) as H. cbn in H.
      apply H, err_eqb_dist. split; apply dist_lt_irrefl.
  Qed.
End argmin.

(** ** places *)
Section locate.
  Context {A : Type}.
  Lemma locate_Some lens : ∀ r, (r < sum_list lens)%nat → ∃ pq, locate lens r = Some pq.
  Proof.
    induction lens as [|l lens IH]; intros r Hr; [cbn in Hr; lia|]. change (sum_list (l :: lens)) with (l + sum_list lens)%nat in Hr. cbn [locate]. destruct (Nat.ltb_spec r l); [by eexists|].
    destruct (IH (r - l)%nat) as [pq ->]; [lia|]. by eexists.
  Qed.
  Lemma locate_at (c : list (list A)) : ∀ r p q, locate (map length c) r = Some (p, q) →
    ∃ page x, c !! p = Some page ∧ page !! q = Some x ∧ concat c !! r = Some x.
  Proof.
    induction c as [|l c IH]; intros r p q H; [done|]. cbn [map locate concat] in *. destruct (Nat.ltb_spec r (length l)) as [Hlt|Hge].
    - injection H as <- <-. destruct (lookup_lt_is_Some_2 l r Hlt) as [x Hx]. exists l, x. split_and!; [done|done|]. by apply lookup_app_l_Some.
    - destruct (locate (map length c) (r - length l)) as [[p' q']|] eqn:E; [|done]. injection H as <- <-.
      destruct (IH _ _ _ E) as (page & x & H1 & H2 & H3). exists page, x. split_and!; [done|done|].
      by rewrite lookup_app_r.
  Qed.
  Lemma locate_insert (c : list (list A)) v : ∀ r p q page, locate (map length c) r = Some (p, q) → c !! p = Some page →
    concat (<[p := <[q := v]> page]> c) = <[r := v]> (concat c).
  Proof.
    induction c as [|l c IH]; intros r p q page H Hp; [done|]. cbn [map locate concat] in *. destruct (Nat.ltb_spec r (length l)) as [Hlt|Hge].
    - injection H as <- <-. injection Hp as <-. cbn. by rewrite insert_app_l.
    - destruct (locate (map length c) (r - length l)) as [[p' q']|] eqn:E; [|done]. injection H as <- <-.
      cbn in *. rewrite insert_app_r_alt by lia. f_equal. by apply IH.
  Qed.
  Lemma locate_mono lens : ∀ r r' p q p' q', (r ≤ r')%nat → locate lens r = Some (p, q) → locate lens r' = Some (p', q') → (p ≤ p')%nat.
  Proof.
    induction lens as [|l lens IH]; intros r r' p q p' q' Hle H H'; [done|]. cbn [locate] in *.
    destruct (Nat.ltb_spec r l) as [Hlt|Hge].
    - injection H as <- <-. lia.
    - destruct (Nat.ltb_spec r' l); [lia|].
      destruct (locate lens (r - l)) as [[a b]|] eqn:E; [|done]. injection H as <- <-.
      destruct (locate lens (r' - l)) as [[a' b']|] eqn:E'; [|done]. injection H' as <- <-. cbn.
      apply le_n_S. eapply IH; [|exact E|exact E']. lia.
  Qed.
  Lemma sum_concat (c : list (list A)) : sum_list (map length c) = length (concat c).
  Proof. induction c as [|l c IH]; [done|]. cbn. by rewrite app_length, IH. Qed.
  Lemma item_at (c : list (list A)) r : (r < length (concat c))%nat → item c r = concat c !! r.
  Proof.
    intros Hr. rewrite <- sum_concat in Hr. destruct (locate_Some _ _ Hr) as [[p q] E]. unfold item. rewrite E.
    destruct (locate_at c r p q E) as (page & x & H1 & H2 & H3). cbn [mbind option_bind fst snd]. rewrite H3, <- H2. unfold pages in *. by rewrite H1.
  Qed.
End locate.

(** ** one cell *)
Section cell.
  Context {A : Type} `{EqDecision A} (missing : list A).
  Notation search := (search missing).
  (** [zs]: what [sparseMap] says of the column *)
  Definition repr (c : list (list A)) (sp : list (nat * A)) (zs : list A) : Prop :=
    length zs = length (concat c) ∧ ∀ i, zs !! i = match dget sp i with Some v => Some v | None => concat c !! i end.
  Lemma sparse_get_spec c sp zs i : repr c sp zs → (i < length (concat c))%nat →
    ∃ v sp', sparse_get c sp i = Some (v, sp') ∧ zs !! i = Some v ∧ repr c sp' zs.
  Proof using Type.
    intros [Hl Hr] Hi. unfold sparse_get. pose proof (Hr i) as E. destruct (dget sp i) as [v|] eqn:Ed.
    - by exists v, sp.
    - rewrite item_at by done. destruct (lookup_lt_is_Some_2 _ _ Hi) as [v Hv]. rewrite Hv in *. cbn. exists v, (dset sp i v).
      split_and!; [done|done|]. split; [done|]. intros k. rewrite dget_dset. case_decide; [by subst|done].
  Qed.
  Lemma repr_set c sp zs r v : repr c sp zs → (r < length (concat c))%nat → repr c (dset sp r v) (<[r := v]> zs).
  Proof using Type.
    intros [Hl Hr] Hi. split; [by rewrite insert_length|]. intros k. rewrite dget_dset. case_decide as E.
    - subst. rewrite list_lookup_insert; [done|lia].
    - rewrite list_lookup_insert_ne by done. apply Hr.
  Qed.

  (** [j] is preferred to every other row with a value *)
  Definition best (errs : list (option Q)) (zs : list A) (r j : nat) : Prop :=
    ∃ e, errs !! j = Some e ∧ ∀ k e' w, k ≠ r → errs !! k = Some e' → zs !! k = Some w → w ∉ missing →
      dist_lt e e' ∨ ¬ dist_lt e' e ∧ (j ≤ k)%nat.
  Definition finite (errs : list (option Q)) : nat := length (filter is_Some errs).
  Lemma finite_clear errs i q : errs !! i = Some (Some q) → finite errs = S (finite (<[i := None]> errs)).
  Proof using Type.
    unfold finite. revert i. induction errs as [|e errs IH]; intros [|i] H; [done|done| |].
    - injection H as ->. change (<[0%nat:=None]> (Some q :: errs)) with (None :: errs). rewrite !filter_cons, decide_True, decide_False; [done|intros [? ?]; done|by eexists].
    - cbn in H. change (<[S i:=None]> (e :: errs)) with (e :: <[i:=None]> errs). rewrite !filter_cons. specialize (IH i H). repeat case_decide; cbn [length] in *; try done; lia.
  Qed.
  Lemma best_argmin errs i e (zs : list A) r : errs !! i = Some e →
    (∀ j e', errs !! j = Some e' → ¬ dist_lt e' e ∧ ((j < i)%nat → dist_lt e e')) → best errs zs r i.
  Proof using Type.
    intros He Hmin. exists e. split; [done|]. intros k e' w _ Hk _ _. destruct (Hmin k e' Hk) as [H1 H2].
    destruct (Nat.ltb_spec k i); [left; by apply H2|by right].
  Qed.

  Lemma search_spec c r zs : (r < length (concat c))%nat → ∀ n errs sp, repr c sp zs → length errs = length (concat c) →
    ∃ o sp', search n c r errs sp = Some (o, sp') ∧
      match o with
      | Some v => ∃ j, j ≠ r ∧ zs !! j = Some v ∧ v ∉ missing ∧ best errs zs r j ∧ repr c sp' (<[r := v]> zs)
      | None => repr c sp' zs ∧ ((finite errs <= n)%nat →
                 ∀ k q w, k ≠ r → errs !! k = Some (Some q) → zs !! k = Some w → w ∈ missing)
      end.
  Proof using Type.
    intros Hr. induction n as [|n IH]; intros errs sp Hsp Hlen; cbn [Nearest.search].
    { exists None, sp. split_and!; [done|done|]. intros Hf k q w Hk He _. exfalso.
      apply finite_clear in He. lia. }
    destruct (argmin_spec errs) as (i & e & -> & He & Hmin); [intros ->; cbn in Hlen; lia|]. cbn [mbind option_bind].
    assert (Hi : (i < length (concat c))%nat) by (rewrite <- Hlen; by eapply lookup_lt_Some).
    destruct (sparse_get_spec c sp zs i Hsp Hi) as (v & sp1 & -> & Hv & Hsp1). cbn [mbind option_bind fst snd].
    case_decide as Hbad.
    - destruct (IH (<[i := None]> errs) sp1 Hsp1) as (o & sp' & -> & H); [by rewrite insert_length|].
      exists o, sp'. split; [done|]. destruct o as [w|].
      + destruct H as (j & Hj & Hzj & Hw & (ej & Hej & Hbest) & Hrep). exists j. split_and!; try done.
        assert (Hij : j ≠ i). { intros ->. destruct Hbad as [?|?]; [done|]. congruence. }
        rewrite list_lookup_insert_ne in Hej by done. exists ej. split; [done|].
        intros k e' w' Hk Hek Hzk Hw'. apply (Hbest k e' w' Hk); [|done|done]. rewrite list_lookup_insert_ne; [done|].
        intros ->. destruct Hbad as [?|?]; [done|]. congruence.
      + destruct H as [Hrep Hall]. split; [done|]. intros Hf k q w Hk Hek Hzk.
        destruct e as [qe|].
        * destruct (decide (k = i)) as [->|Hki]; [destruct Hbad as [?|?]; [done|congruence]|].
          apply (Hall ltac:(rewrite (finite_clear _ _ _ He) in Hf; lia) k q w Hk); [|done]. by rewrite list_lookup_insert_ne.
        * exfalso. destruct (Hmin k _ Hek) as [Hn _]. apply Hn. done.
    - exists (Some v), (dset sp1 r v). split; [done|]. exists i. apply Decidable.not_or in Hbad as [Hb1 Hb2]. split_and!; try done.
      + by eapply best_argmin.
      + by apply repr_set.
  Qed.

  Lemma fill_cell_spec c r ix errs x sp zs : (r < length (concat c))%nat → repr c sp zs → length errs = length (concat c) →
    argmin errs = Some ix →
    ∃ y sp', fill_cell missing c r ix errs x sp = Some (y, sp') ∧
      if decide (x ∈ missing) then
        (∃ j, (zs !! r = Some x → j ≠ r) ∧ zs !! j = Some y ∧ y ∉ missing ∧ best errs zs r j ∧ repr c sp' (<[r := y]> zs)) ∨
        (y = x ∧ repr c sp' zs ∧ ∀ k q w, k ≠ r → errs !! k = Some (Some q) → zs !! k = Some w → w ∈ missing)
      else y = x ∧ sp' = sp.
  Proof using Type.
    intros Hr Hsp Hlen Hix. unfold fill_cell. destruct (decide (x ∈ missing)) as [Hx|Hx].
    2:{ rewrite decide_True by done. by exists x, sp. }
    rewrite decide_False by tauto.
    destruct (argmin_spec errs) as (i & e & E & He & Hmin); [intros ->; cbn in Hlen; lia|]. rewrite Hix in E. injection E as <-.
    assert (Hi : (ix < length (concat c))%nat) by (rewrite <- Hlen; by eapply lookup_lt_Some).
    destruct (sparse_get_spec c sp zs ix Hsp Hi) as (v & sp1 & -> & Hv & Hsp1). cbn [mbind option_bind fst snd].
    case_decide as Hvm.
    - exists v, (dset sp1 r v). split; [done|]. left. exists ix. split_and!; try done.
      + intros Hz ->. congruence.
      + by eapply best_argmin.
      + by apply repr_set.
    - destruct (search_spec c r zs Hr (length errs) errs sp1 Hsp1 Hlen) as (o & sp' & -> & H). cbn [mbind option_bind fst snd].
      eexists _, sp'. split; [done|]. destruct o as [w|]; cbn [default].
      + left. destruct H as (j & Hj & Hz & Hw & Hb & Hrep). exists j. split_and!; try done.
      + right. destruct H as [Hrep Hall]. split_and!; [done|done|]. apply Hall. unfold finite. rewrite filter_length. done.
  Qed.
End cell.

(** ** the distance *)
Section distance.
  Context {A : Type} `{EqDecision A} (leb : A → A → bool) (missing : list A).
  Context (leb_total : ∀ x y, leb x y = true ∨ leb y x = true) (leb_trans : ∀ x y z, leb x y = true → leb y z = true → leb x z = true)
    (leb_anti : ∀ x y, leb x y = true → leb y x = true → x = y).

  Lemma uniq_spec (xs : list A) : NoDup (uniq xs) ∧ ∀ v, v ∈ uniq xs ↔ v ∈ xs.
  Proof using Type.
    unfold uniq. assert (H : ∀ u, NoDup u → NoDup (fold_left (λ u v, if decide (v ∈ u) then u else u ++ [v]) xs u) ∧
      ∀ v, v ∈ fold_left (λ u v, if decide (v ∈ u) then u else u ++ [v]) xs u ↔ v ∈ u ∨ v ∈ xs).
    { induction xs as [|x xs IH]; intros u Hu; cbn [fold_left].
      - split; [done|]. intros v. rewrite elem_of_nil. tauto.
      - destruct (decide (x ∈ u)) as [Hx|Hx].
        + destruct (IH u Hu) as [H1 H2]. split; [done|]. intros v. rewrite H2, elem_of_cons. naive_solver.
        + destruct (IH (u ++ [x])) as [H1 H2].
          { apply list.NoDup_app. split_and!; [done| |apply NoDup_singleton]. intros y Hy ->%elem_of_list_singleton. done. }
          split; [done|]. intros v. rewrite H2, elem_of_app, elem_of_list_singleton, elem_of_cons. tauto. }
    destruct (H [] ltac:(constructor)) as [H1 H2]. split; [done|]. intros v. rewrite H2, elem_of_nil. tauto.
  Qed.
  Lemma uniq_perm (xs : list A) : uniq xs ≡ₚ remove_dups xs.
  Proof using Type.
    destruct (uniq_spec xs) as [H1 H2]. apply NoDup_Permutation; [done|apply NoDup_remove_dups|].
    intros v. by rewrite H2, elem_of_remove_dups.
  Qed.
  Lemma position_sorted l v : StronglySorted (λ a b, leb a b = true) l → NoDup l → v ∈ l →
    position v l = length (filter (λ w, leb w v = true ∧ w ≠ v) l).
  Proof using leb_anti leb_total leb_trans.
    induction 1 as [|x l Hl IH Hx]; intros Hnd Hv; [by apply elem_of_nil in Hv|].
    apply list.NoDup_cons in Hnd as [Hn Hnd]. cbn [position]. rewrite filter_cons. case_decide as E.
    - subst x. rewrite decide_False by tauto. 
      assert (filter (λ w, leb w v = true ∧ w ≠ v) l = []) as ->; [|done].
      destruct (filter (λ w, leb w v = true ∧ w ≠ v) l) as [|y k] eqn:Ef; [done|]. exfalso.
      assert (Hy : y ∈ filter (λ w, leb w v = true ∧ w ≠ v) l) by (rewrite Ef; left).
      apply elem_of_list_filter in Hy as [[Hy1 Hy2] Hy]. apply Hy2. apply leb_anti; [done|].
      exact (proj1 (list.Forall_forall _ _) Hx y Hy).
    - apply elem_of_cons in Hv as [?|Hv]; [congruence|]. rewrite decide_True; [cbn [length]; f_equal; by apply IH|].
      split; [|done]. exact (proj1 (list.Forall_forall _ _) Hx v Hv).
  Qed.
  Lemma norm_normal xs v : v ∈ xs → norm leb missing xs v = if decide (v ∈ missing) then None else Some (normal leb missing xs v).
  Proof using leb_anti leb_total leb_trans.
    intros Hv. unfold norm. case_decide; [done|]. f_equal. unfold normal, rank, unix_sort.
    destruct (uniq_spec xs) as [Hnd Hin]. pose proof (uniq_perm xs) as Hu.
    assert (Hp : py_sort leb (uniq xs) ≡ₚ remove_dups xs) by (rewrite StatsProofs.py_sort_perm; done).
    rewrite (position_sorted (py_sort leb (uniq xs)) v).
    - by rewrite Hp.
    - apply StatsProofs.py_sort_sorted; [intros x y Hxy; destruct (leb_total x y); congruence|exact leb_trans].
    - rewrite Hp. apply NoDup_remove_dups.
    - rewrite Hp. by apply elem_of_remove_dups.
  Qed.

  Notation norm := (norm leb missing).
  Notation distance := (distance leb missing).
  Definition errs (len : nat) (srcs : list (list (list A))) (r : nat) : list (option Q) :=
    err_map len (map (λ c, concat c !! r ≫= norm (concat c)) srcs) (map (λ c, map (norm (concat c)) (concat c)) srcs).
  Lemma errs_spec len srcs r : Forall (λ c, length (concat c) = len) srcs → (r < len)%nat →
    length (errs len srcs r) = len ∧ ∀ j, (j < len)%nat → errs len srcs r !! j = Some (distance (map (λ c, concat c) srcs) r j).
  Proof using leb_anti leb_total leb_trans.
    intros Hlen Hr. unfold errs, err_map, Neighbour.distance.
    assert (H : ∀ es (d : nat → option Q), length es = len → (∀ j, (j < len)%nat → es !! j = Some (d j)) →
      let es' := fold_left (λ errMap (s : option Q * list (option Q)), match s.1 with None => errMap | Some q => zip_with (add_err q) errMap s.2 end)
        (zip (map (λ c, concat c !! r ≫= norm (concat c)) srcs) (map (λ c, map (norm (concat c)) (concat c)) srcs)) es in
      length es' = len ∧ ∀ j, (j < len)%nat → es' !! j = Some (fold_left (λ d xs,
        match xs !! r, xs !! j with
        | Some v, Some w =>
          if decide (v ∈ missing) then d else if decide (w ∈ missing) then None else
          match d with Some d => Some (d + Qabs (normal leb missing xs v - normal leb missing xs w))%Q | None => None end
        | _, _ => d end) (map (λ c, concat c) srcs) (d j))).
    { induction Hlen as [|c srcs Hc Hs IH]; intros es d Hes Hd; [done|]. cbn [map zip zip_with fold_left fst snd].
      destruct (lookup_lt_is_Some_2 (concat c) r) as [v Hv]; [lia|]. rewrite Hv. cbn [mbind option_bind].
      rewrite norm_normal by (by eapply elem_of_list_lookup_2). destruct (decide (v ∈ missing)) as [Hm|Hm].
      - destruct (IH es d Hes Hd) as [H1 H2]. split; [done|]. intros j Hj. rewrite H2 by done. f_equal. f_equal.
        destruct (lookup_lt_is_Some_2 (concat c) j) as [w Hw]; [lia|]. by rewrite Hw.
      - apply IH.
        + rewrite zip_with_length, map_length. lia.
        + intros j Hj. destruct (lookup_lt_is_Some_2 (concat c) j) as [w Hw]; [lia|]. rewrite lookup_zip_with, Hd by done. cbn [mbind option_bind].
          rewrite list_lookup_fmap, Hw. cbn [fmap option_fmap option_map mbind option_bind].
          rewrite norm_normal by (by eapply elem_of_list_lookup_2). f_equal. unfold add_err. destruct (decide (w ∈ missing)); by destruct (d j). }
    apply (H (replicate len (Some 0%Q)) (λ _, Some 0%Q)); [by rewrite replicate_length|]. intros j Hj. by apply lookup_replicate_2.
  Qed.
End distance.

(** ** the loop *)
Section loop.
  Context {A : Type} `{EqDecision A} (leb : A → A → bool) (missing : list A).
  Notation pages := (list (list A)).
  (** a target column: its pages, what they are to become by now, what [sparseMap] says *)
  Record ghost := G { gc : pages; gv : pages; gz : list A }.
  Definition holds (p : nat) (g : ghost) (co : list A * pages) : Prop := gv g = <[p := co.1]> co.2 ∧ (p < length co.2)%nat.
  Definition rel (s : state) (gs : list ghost) : Prop :=
    match last s with
    | None => out s = map gv gs
    | Some p => ∃ cos, cur s = map fst cos ∧ out s = map snd cos ∧ Forall2 (holds p) gs cos
    end.
  Definition cell_step (p q r : nat) (es : list (option Q)) (g g' : ghost) : Prop :=
    gc g' = gc g ∧ ∃ page x y, gv g !! p = Some page ∧ page !! q = Some x ∧ gv g' = <[p := <[q := y]> page]> (gv g) ∧
    if decide (x ∈ missing) then
      (∃ j, (gz g !! r = Some x → j ≠ r) ∧ gz g !! j = Some y ∧ y ∉ missing ∧ best missing es (gz g) r j ∧ gz g' = <[r := y]> (gz g)) ∨
      (y = x ∧ gz g' = gz g ∧ ∀ k d w, k ≠ r → es !! k = Some (Some d) → gz g !! k = Some w → w ∈ missing)
    else y = x ∧ gz g' = gz g.

  Lemma save_cos gs cos p : Forall2 (holds p) gs cos → save_pages (map fst cos) (map snd cos) p = map gv gs.
  Proof using Type. induction 1 as [|g co gs cos [H _] Hs IH]; [done|]. cbn [map save_pages]. by rewrite H, IH. Qed.
  Lemma rel_save s gs : rel s gs → save s = map gv gs.
  Proof using Type.
    unfold rel, save. destruct (last s) as [p|]; [|done]. intros (cos & -> & -> & H). by apply save_cos.
  Qed.

  Lemma fill_row_spec lens p q r ix es gs : locate lens r = Some (p, q) → length es = sum_list lens → argmin es = Some ix →
    ∀ cos sps, Forall (λ g, map length (gc g) = lens ∧ map length (gv g) = lens) gs →
    Forall2 (holds p) gs cos → Forall2 (λ g sp, repr (gc g) sp (gz g)) gs sps →
    ∃ cos' sps' gs', fill_row missing (map gc gs) r q ix es (map fst cos) sps = Some (map fst cos', sps') ∧
      map snd cos' = map snd cos ∧ Forall2 (holds p) gs' cos' ∧ Forall2 (λ g sp, repr (gc g) sp (gz g)) gs' sps' ∧
      Forall2 (cell_step p q r es) gs gs'.
  Proof using Type.
    intros Hloc Hes Hix. induction gs as [|g gs IH]; intros cos sps Hlay Hcos Hsps.
    - apply Forall2_nil_inv_l in Hcos, Hsps. subst. exists [], [], []. by repeat constructor.
    - apply list.Forall_cons in Hlay as [[Hl1 Hl2] Hlay]. apply Forall2_cons_inv_l in Hcos as ([page o] & cos1 & [Hv Hp] & Hcos & ->).
      apply Forall2_cons_inv_l in Hsps as (sp & sps1 & Hsp & Hsps & ->). cbn [fst snd] in *.
      destruct (IH cos1 sps1 Hlay Hcos Hsps) as (cos' & sps' & gs' & Hr & Hsnd & Hh & Hrep & Hst).
      assert (Hpage : gv g !! p = Some page) by (rewrite Hv; by rewrite list_lookup_insert).
      pose proof Hloc as Hloc2. rewrite <- Hl2 in Hloc2. destruct (locate_at (gv g) r p q Hloc2) as (page' & x & E & Hx & _).
      rewrite Hpage in E. injection E as <-.
      assert (Hrl : (r < length (concat (gc g)))%nat).
      { pose proof Hloc as Hloc1. rewrite <- Hl1 in Hloc1. destruct (locate_at (gc g) r p q Hloc1) as (? & ? & _ & _ & H). by eapply lookup_lt_Some. }
      destruct (fill_cell_spec missing (gc g) r ix es x sp (gz g) Hrl Hsp) as (y & sp' & Hf & Hcase); [rewrite <- sum_concat; congruence|done|].
      cbn [map fst snd fill_row]. rewrite Hx. cbn [mbind option_bind]. rewrite Hf. cbn [mbind option_bind fst snd]. rewrite Hr. cbn [mbind option_bind fst snd].
      assert (Hins : <[p := <[q := y]> page]> (gv g) = <[p := <[q := y]> page]> o) by (rewrite Hv; by rewrite list_insert_insert).
      assert (Hgo : ∀ z', repr (gc g) sp' z' →
        (if decide (x ∈ missing) then
          (∃ j, (gz g !! r = Some x → j ≠ r) ∧ gz g !! j = Some y ∧ y ∉ missing ∧ best missing es (gz g) r j ∧ z' = <[r := y]> (gz g)) ∨
          (y = x ∧ z' = gz g ∧ ∀ k d w, k ≠ r → es !! k = Some (Some d) → gz g !! k = Some w → w ∈ missing)
         else y = x ∧ z' = gz g) →
        ∃ cos'' sps'' gs'', Some (<[q := y]> page :: map fst cos', sp' :: sps') = Some (map fst cos'', sps'') ∧
          map snd cos'' = o :: map snd cos1 ∧ Forall2 (holds p) gs'' cos'' ∧ Forall2 (λ g sp, repr (gc g) sp (gz g)) gs'' sps'' ∧
          Forall2 (cell_step p q r es) (g :: gs) gs'').
      { intros z' Hz' Hc. exists ((<[q := y]> page, o) :: cos'), (sp' :: sps'), (G (gc g) (<[p := <[q := y]> page]> (gv g)) z' :: gs').
        split_and!; [done|cbn; by rewrite Hsnd|by constructor|by constructor|].
        constructor; [|done]. split; [done|]. by exists page, x, y. }
      destruct (decide (x ∈ missing)) as [Hm|Hm].
      + destruct Hcase as [(j & H1 & H2 & H3 & H4 & H5)|(-> & H5 & H6)].
        * apply (Hgo _ H5). left. by exists j.
        * apply (Hgo _ H5). by right.
      + destruct Hcase as [-> ->]. apply (Hgo _ Hsp). done.
  Qed.

  Definition reload (p : nat) (g : ghost) : ghost := G (gc g) (<[p := default [] (gc g !! p)]> (gv g)) (gz g).
  Lemma load_spec lens p s gs : (p < length lens)%nat → Forall (λ g, map length (gc g) = lens ∧ map length (gv g) = lens) gs →
    rel s gs → ∃ s1 gs1, load (map gc gs) p s = Some s1 ∧ sparse s1 = sparse s ∧ last s1 = Some p ∧
      gs1 = (if decide (last s = Some p) then gs else map (reload p) gs) ∧
      ∃ cos, cur s1 = map fst cos ∧ out s1 = map snd cos ∧ Forall2 (holds p) gs1 cos.
  Proof using Type.
    intros Hp Hlay Hrel. unfold load. case_decide as E.
    - exists s, gs. split_and!; try done. unfold rel in Hrel. by rewrite E in Hrel.
    - rewrite (rel_save s gs Hrel).
      assert (Hm : mapM (λ c : Nearest.pages, c !! p) (map gc gs) = Some (map (λ g, default [] (gc g !! p)) gs)).
      { clear -Hlay Hp. induction Hlay as [|g gs [Hl1 _] Hs IH]; [done|]. cbn [map mapM].
        destruct (lookup_lt_is_Some_2 (gc g) p) as [page Hpg]; [rewrite <- Hl1, map_length in Hp; done|].
        unfold Nearest.pages in *. rewrite Hpg. cbn [mbind option_bind]. rewrite IH. done. }
      rewrite Hm. cbn [mbind option_bind]. eexists _, _. split_and!; [done|done|done|done|].
      exists (map (λ g, (default [] (gc g !! p), gv g)) gs). cbn [cur out]. rewrite !map_map. split_and!; [done|done|].
      clear -Hlay Hp. induction Hlay as [|g gs [_ Hl2] Hs IH]; [constructor|]. cbn [map]. constructor; [|done].
      split; [done|]. cbn [snd]. by rewrite <- Hl2, map_length in Hp.
  Qed.

  Context (lens : list nat) (srcs : list pages).
  Context (Hsrcs : srcs ≠ []) (Hlay : Forall (λ c, map length c = lens) srcs).
  Notation len := (sum_list lens).
  Notation norms := (map (λ c, map (norm leb missing (concat c)) (concat c)) srcs).
  Notation errs := (errs leb missing len srcs).
  Context (leb_total : ∀ x y, leb x y = true ∨ leb y x = true) (leb_trans : ∀ x y z, leb x y = true → leb y z = true → leb x z = true)
    (leb_anti : ∀ x y, leb x y = true → leb y x = true → x = y).

  Lemma srcs_len : Forall (λ c, length (concat c) = len) srcs.
  Proof using Hlay. eapply list.Forall_impl; [exact Hlay|]. intros c Hc. cbn in *. by rewrite <- sum_concat, Hc. Qed.
  Lemma row_spec r p q : locate lens r = Some (p, q) → ∃ row, row_at srcs p q = Some row ∧
    zip_with (λ c v, norm leb missing (concat c) v) srcs row = map (λ c, concat c !! r ≫= norm leb missing (concat c)) srcs.
  Proof using Hlay.
    intros Hloc. clear Hsrcs. induction Hlay as [|c l Hc Hl IH]; [by exists []|]. destruct (IH Hl) as (row & Hr & Hz).
    rewrite <- Hc in Hloc. destruct (locate_at c r p q Hloc) as (page & x & H1 & H2 & H3). exists (x :: row).
    unfold row_at in *. cbn [mapM map zip_with]. unfold Nearest.pages in *. rewrite H1. cbn [mbind option_bind]. rewrite H2. cbn [mbind option_bind].
    rewrite Hr, Hz, H3. done.
  Qed.

  Lemma visit_spec s gs r : (r < len)%nat → Forall (λ g, map length (gc g) = lens ∧ map length (gv g) = lens) gs →
    rel s gs → Forall2 (λ g sp, repr (gc g) sp (gz g)) gs (sparse s) →
    ∃ p q s' gs', locate lens r = Some (p, q) ∧ visit leb missing len srcs (map gc gs) norms s r = Some s' ∧
      last s' = Some p ∧ rel s' gs' ∧ Forall2 (λ g sp, repr (gc g) sp (gz g)) gs' (sparse s') ∧
      Forall2 (cell_step p q r (errs r)) (if decide (last s = Some p) then gs else map (reload p) gs) gs'.
  Proof using Hsrcs Hlay leb_total leb_trans leb_anti.
    intros Hr Hgs Hrel Hsp. destruct (locate_Some lens r Hr) as [[p q] Hloc].
    destruct (row_spec r p q Hloc) as (row & Hrow & Hz).
    destruct (errs_spec leb missing leb_total leb_trans leb_anti len srcs r srcs_len Hr) as [Hel _].
    destruct (argmin_spec (errs r)) as (ix & e & Hix & _ & _). { intros E. rewrite E in Hel. cbn in Hel. lia. }
    assert (Hp : (p < length lens)%nat).
    { clear -Hloc. revert r p q Hloc. induction lens as [|l ls IH]; intros r p q H; [done|]. cbn [locate] in H.
      destruct (Nat.ltb r l); [injection H as <- <-; cbn; lia|]. destruct (locate ls (r - l)) as [[a b]|] eqn:E; [|done].
      injection H as <- <-. apply IH in E. cbn. lia. }
    destruct (load_spec lens p s gs Hp Hgs Hrel) as (s1 & gs1 & Hload & Hs1 & Hl1 & Hgs1 & cos & Hc1 & Hc2 & Hc3).
    assert (Hgs' : Forall (λ g, map length (gc g) = lens ∧ map length (gv g) = lens) gs1).
    { subst gs1. case_decide; [done|]. apply list.Forall_forall. intros g (g0 & -> & Hg)%elem_of_list_fmap.
      destruct (proj1 (list.Forall_forall _ _) Hgs g0 Hg) as [E1 E2]. cbn. split; [done|].
      change (map length) with (fmap length : list (list A) → list nat) in *. rewrite list_fmap_insert, E2.
      apply list_insert_id. destruct (lookup_lt_is_Some_2 (gc g0) p) as [page Hpg]; [rewrite <- E1, fmap_length in Hp; done|].
      rewrite Hpg. cbn. rewrite <- E1. by rewrite list_lookup_fmap, Hpg. }
    assert (Hgc : map gc gs1 = map gc gs). { subst gs1. case_decide; [done|]. by rewrite map_map. }
    destruct (fill_row_spec lens p q r ix (errs r) gs1 Hloc Hel Hix cos (sparse s1) Hgs' Hc3) as (cos' & sps' & gs' & Hf & Hsnd & Hh & Hrep & Hst).
    { rewrite Hs1. subst gs1. case_decide; [done|]. clear -Hsp. induction Hsp; cbn [map]; constructor; done. }
    exists p, q, (MkState (map fst cos') (last s1) sps' (out s1)), gs'. split_and!.
    - done.
    - unfold visit. destruct srcs as [|c0 l0] eqn:Esrc; [done|]. cbn [head mbind option_bind].
      apply list.Forall_cons in Hlay as Hl0. destruct Hl0 as [-> _]. rewrite Hloc. cbn [mbind option_bind fst snd]. rewrite Hrow. cbn [mbind option_bind].
      cbv zeta. rewrite Hz. match goal with |- context [err_map ?a ?b ?c] => change (err_map a b c) with (NearestProofs.errs leb missing len (c0 :: l0) r) end. rewrite Hix. cbn [mbind option_bind].
      rewrite Hload. cbn [mbind option_bind]. rewrite Hc1, <- Hgc. unfold Nearest.pages in *. rewrite Hf. done.
    - done.
    - unfold rel. cbn. rewrite Hl1. exists cos'. split_and!; [done|by rewrite Hc2|done].
    - done.
    - by subst gs1.
  Qed.
End loop.
