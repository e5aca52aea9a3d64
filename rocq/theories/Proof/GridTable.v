(** The columns of [pivot]. *)
From Verif.Proof Require Export GridBase.
From Verif.Proof Require Import ColumnRead ColumnMisc SliceLemmas.
Local Open Scope Z_scope.

(** ** filling *)
Section fill.
  Context {A : Type} (none : A).

  Lemma concat_lookup_block (Bs : list (list A)) g r B ix :
    Forall (λ B, length B = g) Bs → Bs !! r = Some B → (ix < g)%nat → concat Bs !! (g * r + ix)%nat = B !! ix.
  Proof.
    intros HB. revert r. induction HB as [|B0 Bs Hl HB IH]; intros r Hr Hix; [done|]. cbn [concat].
    destruct r as [|r].
    - injection Hr as ->. rewrite Nat.mul_0_r, Nat.add_0_l. apply lookup_app_l. lia.
    - rewrite lookup_app_r by lia. rewrite <- (IH r) by done. f_equal. lia.
  Qed.
  Lemma concat_insert_block (Bs : list (list A)) g r B ix x :
    Forall (λ B, length B = g) Bs → Bs !! r = Some B → (ix < g)%nat →
    <[(g * r + ix)%nat := x]> (concat Bs) = concat (<[r := <[ix := x]> B]> Bs).
  Proof.
    intros HB. revert r. induction HB as [|B0 Bs Hl HB IH]; intros r Hr Hix; [done|].
    destruct r as [|r]; cbn [concat].
    - injection Hr as ->. rewrite Nat.mul_0_r, Nat.add_0_l, insert_app_l by lia. done.
    - replace (g * S r + ix)%nat with (length B0 + (g * r + ix))%nat by lia. rewrite insert_app_r. by rewrite IH.
  Qed.
  Lemma concat_length_blocks (Bs : list (list A)) g : Forall (λ B, length B = g) Bs → length (concat Bs) = (g * length Bs)%nat.
  Proof. induction 1; cbn [concat length]; [lia|]. rewrite app_length. lia. Qed.

  Lemma set_at_ok (L : list A) i x : (i < length L)%nat → set_at L i x = Ok (<[i := x]> L).
  Proof. intros Hi. unfold set_at. by apply Nat.ltb_lt in Hi as ->. Qed.

  Lemma fill_spec g r (Bs : list (list A)) (pre suf old : list A) :
    Forall (λ B, length B = g) Bs → Bs !! r = Some (pre ++ old) → length old = length suf →
    fill g r (length pre) suf (concat Bs) = Ok (concat (<[r := pre ++ suf]> Bs)).
  Proof.
    revert Bs pre old. induction suf as [|f suf IH]; intros Bs pre old HB Hr Hl; cbn [fill].
    - apply nil_length_inv in Hl. subst old. by rewrite list_insert_id.
    - destruct old as [|o old]; [done|].
      pose proof (proj1 (list.Forall_lookup _ _) HB r _ Hr) as Hg. cbn beta in Hg. rewrite app_length in Hg. cbn [length] in Hg.
      assert (r < length Bs)%nat as Hrl by (by apply lookup_lt_Some in Hr).
      rewrite set_at_ok by (rewrite (concat_length_blocks _ g) by done; nia). cbn [res_bind].
      rewrite (concat_insert_block _ g _ (pre ++ o :: old)) by (done || lia).
      assert (<[length pre:=f]> (pre ++ o :: old) = (pre ++ [f]) ++ old) as ->.
      { rewrite <- (Nat.add_0_r (length pre)), insert_app_r. cbn. by rewrite <- app_assoc. }
      replace (S (length pre)) with (length (pre ++ [f])) by (rewrite app_length; cbn; lia).
      rewrite (IH _ (pre ++ [f]) old).
      + rewrite list_insert_insert, <- app_assoc. done.
      + apply list.Forall_forall. intros B [i Hi]%elem_of_list_lookup. apply list_lookup_insert_Some in Hi as [(_ & <- & _)|[_ Hi]].
        * rewrite !app_length. cbn [length]. lia.
        * exact (proj1 (list.Forall_lookup _ _) HB i B Hi).
      + by apply list_lookup_insert.
      + by injection Hl.
  Qed.

  Lemma insert_fold_length {X} (d : list (nat * X)) (Bs : list X) : length (fold_left (λ Bs e, <[e.1 := e.2]> Bs) d Bs) = length Bs.
  Proof. revert Bs. induction d as [|e d IH]; intros Bs; cbn [fold_left]; [done|]. rewrite IH. apply insert_length. Qed.
  Lemma insert_fold_lookup {X} (d : list (nat * X)) (Bs : list X) r :
    NoDup d.*1 → (∀ i, i ∈ d.*1 → i < length Bs)%nat →
    fold_left (λ Bs e, <[e.1 := e.2]> Bs) d Bs !! r = match dget d r with Some f => Some f | None => Bs !! r end.
  Proof.
    revert Bs. induction d as [|[i f] d IH]; intros Bs Hnd Hin; cbn [fold_left dget]; [done|].
    rewrite fmap_cons in Hnd, Hin. cbn [fst snd] in *. apply list.NoDup_cons in Hnd as [Hi Hnd].
    rewrite IH; [|done|]. 2:{ intros j Hj. rewrite insert_length. apply Hin. by right. }
    destruct (decide (r = i)) as [->|Hri].
    - assert (dget d i = None) as -> by (by apply dget_None). rewrite list_lookup_insert; [done|]. apply Hin. by left.
    - destruct (dget d r); [done|]. by rewrite list_lookup_insert_ne.
  Qed.

  Lemma fill_all_spec g (d : list (nat * list A)) (Bs : list (list A)) :
    Forall (λ B, length B = g) Bs → Forall (λ e, length e.2 = g ∧ (e.1 < length Bs)%nat) d →
    fill_all g d (concat Bs) = Ok (concat (fold_left (λ Bs e, <[e.1 := e.2]> Bs) d Bs)).
  Proof.
    intros HB Hd. revert Bs HB Hd. induction d as [|[r fs] d IH]; intros Bs HB Hd; [done|]. cbn [fill_all fold_left fst snd].
    apply list.Forall_cons in Hd as [[H1 H2] Hd]. cbn [fst snd] in *.
    destruct (lookup_lt_is_Some_2 Bs r H2) as [B Hr].
    pose proof (proj1 (list.Forall_lookup _ _) HB r _ Hr) as Hg. cbn beta in Hg.
    pose proof (fill_spec g r Bs [] fs B HB Hr ltac:(lia)) as Hf. cbn [length app] in Hf. rewrite Hf. cbn [res_bind]. apply IH.
    - apply list.Forall_forall. intros B' [i Hi]%elem_of_list_lookup. apply list_lookup_insert_Some in Hi as [(_ & <- & _)|[_ Hi]]; [done|].
      exact (proj1 (list.Forall_lookup _ _) HB i B' Hi).
    - eapply list.Forall_impl; [exact Hd|]. intros e. by rewrite insert_length.
  Qed.

  Lemma replicate_blocks g R : replicate (g * R) none = concat (replicate R (replicate g none)).
  Proof. induction R as [|R IH]; [by rewrite Nat.mul_0_r|]. rewrite Nat.mul_succ_r, Nat.add_comm, replicate_add, IH. done. Qed.

  (** ** more columns *)
  Lemma fill_cols_spec r (cols : list (list A)) fs :
    length fs = length cols → Forall (λ c, (r < length c)%nat) cols →
    fill_cols r cols fs = Ok (zip_with (λ col f, <[r := f]> col) cols fs).
  Proof.
    intros Hl Hr. revert fs Hl. induction Hr as [|c cols Hc Hr IH]; intros [|f fs] Hl; try done.
    cbn [fill_cols zip_with]. rewrite set_at_ok by done. cbn [res_bind]. rewrite IH; [done|]. by injection Hl.
  Qed.
  Lemma fill_all_cols_spec R (d : list (nat * list A)) (cols : list (list A)) :
    Forall (λ c, length c = R) cols → Forall (λ e, length e.2 = length cols ∧ (e.1 < R)%nat) d →
    fill_all_cols d cols
    = Ok (imap (λ j col, fold_left (λ col e, <[e.1 := default none (e.2 !! j)]> col) d col) cols).
  Proof.
    revert cols. induction d as [|[r fs] d IH]; intros cols Hc Hd; cbn [fill_all_cols fold_left fst snd].
    - f_equal. symmetry. transitivity (map id cols); [apply (imap_const id)|apply map_id].
    - apply list.Forall_cons in Hd as [[H1 H2] Hd]. cbn [fst snd] in *. rewrite fill_cols_spec.
      2: done. 2:{ eapply list.Forall_impl; [exact Hc|]. intros c ->. done. }
      cbn [res_bind]. rewrite IH.
      + f_equal. apply list_eq. intros j. rewrite !list_lookup_imap, lookup_zip_with.
        destruct (cols !! j) as [c|] eqn:Ec; [|done]. cbn. destruct (lookup_lt_is_Some_2 fs j) as [f Hf].
        { rewrite H1. by apply lookup_lt_Some in Ec. }
        by rewrite Hf.
      + apply list.Forall_forall. intros c Hin. apply elem_of_list_lookup in Hin as [j Hj].
        rewrite lookup_zip_with in Hj. destruct (cols !! j) as [c0|] eqn:Ec; [|done]. cbn in Hj.
        destruct (fs !! j); [|done]. injection Hj as <-. rewrite insert_length. exact (proj1 (list.Forall_lookup _ _) Hc j _ Ec).
      + eapply list.Forall_impl; [exact Hd|]. intros e [He1 He2]. split; [|done]. rewrite zip_with_length. rewrite He1, H1. lia.
  Qed.
End fill.

(** ** the columns of keys *)
Section keys.
  Context {A E : Type} (none : A) (text : string → A).
  Definition at_col (m : nat) (k : list A) : A := default none (k !! m).
  Lemma at_cols r (k : list A) : length k = r → map (λ m, at_col m k) (seq 0 r) = k.
  Proof. intros <-. apply (at_seq none). Qed.

  Lemma add_keys_map r (l : list (list A)) k : length k = r →
    add_keys (map (λ m, map (at_col m) l) (seq 0 r)) k = map (λ m, map (at_col m) (l ++ [k])) (seq 0 r).
  Proof.
    intros Hk. unfold add_keys. apply list_eq. intros m. rewrite list_lookup_imap.
    change (map ?f ?x) with (f <$> x). rewrite !list_lookup_fmap.
    destruct (decide (m < r)%nat) as [Hm|Hm].
    - rewrite lookup_seq_lt by done. cbn. f_equal. rewrite fmap_app. cbn. f_equal. unfold at_col.
      destruct (lookup_lt_is_Some_2 k m) as [x ->]; [lia|]. done.
    - rewrite lookup_seq_ge by lia. done.
  Qed.
  Lemma add_keys_fold r (l l' : list (list A)) : Forall (λ k, length k = r) l' →
    fold_left add_keys l' (map (λ m, map (at_col m) l) (seq 0 r)) = map (λ m, map (at_col m) (l ++ l')) (seq 0 r).
  Proof.
    intros Hl. revert l. induction Hl as [|k l' Hk Hl IH]; intros l; cbn [fold_left]; [by rewrite app_nil_r|].
    rewrite add_keys_map by done. rewrite IH, <- app_assoc. done.
  Qed.
  Lemma keys_start r : replicate r [] = map (λ m, map (at_col m) (@nil (list A))) (seq 0 r).
  Proof.
    apply list_eq. intros m. change (map ?f ?x) with (f <$> x). rewrite list_lookup_fmap. destruct (decide (m < r)%nat).
    - rewrite lookup_replicate_2, lookup_seq_lt by done. done.
    - rewrite lookup_seq_ge by lia. apply lookup_ge_None_2. rewrite replicate_length. lia.
  Qed.
  Definition fun_label (f : string * string) : A := text (f.2 +:+ "(" +:+ f.1 +:+ ")")%string.
  (** a row of the result: its key, the position and the label of its value *)
  Definition row_ixs (functions : list (string * string)) (ks : list (list A)) : list (list A * (nat * A)) :=
    concat (map (λ k, map (pair k) (zip (seq 0 (length functions)) (map fun_label functions))) ks).
  Lemma key_lists_spec r functions (ris : index (A := A) (E := E)) : Forall (λ k, length k = r) (map (λ e, e.2.1) ris) →
    key_lists text r functions ris =
    let ixs := row_ixs functions (map (λ e, e.2.1) ris) in
    (map (λ m, map (λ p, at_col m p.1) ixs) (seq 0 r), map (λ p, p.2.2) ixs).
  Proof.
    intros Hl. unfold key_lists.
    assert (H : ∀ (l : list (list A)) (labels : list A),
      fold_left (λ s (k : list E * (list A * nat)),
        fold_left (λ s (f : string * string), (add_keys s.1 k.2.1, s.2 ++ [fun_label f])) functions s)
        ris (map (λ m, map (at_col m) l) (seq 0 r), labels)
      = (map (λ m, map (at_col m) (l ++ (row_ixs functions (map (λ e, e.2.1) ris)).*1)) (seq 0 r),
         labels ++ map (λ p, p.2.2) (row_ixs functions (map (λ e, e.2.1) ris)))).
    { induction ris as [|e ris IH]; intros l labels; cbn [fold_left].
      - cbn. by rewrite !app_nil_r.
      - cbn [map] in Hl. apply list.Forall_cons in Hl as [He Hl].
        assert (Hin : ∀ (fs : list (string * string)) l labels, fold_left (λ s (f : string * string), (add_keys s.1 e.2.1, s.2 ++ [fun_label f])) fs (map (λ m, map (at_col m) l) (seq 0 r), labels)
          = (map (λ m, map (at_col m) (l ++ replicate (length fs) e.2.1)) (seq 0 r), labels ++ map fun_label fs)).
        { induction fs as [|f fs IHf]; intros l0 labels0; cbn [fold_left]; [cbn; by rewrite !app_nil_r|].
          cbn [fst snd]. rewrite add_keys_map by done. rewrite IHf. cbn [length replicate map]. by rewrite <- !app_assoc. }
        rewrite Hin, IH by done. unfold row_ixs. cbn [map concat]. rewrite fmap_app, map_app, <- !app_assoc.
        assert (E1 : (map (pair e.2.1) (zip (seq 0 (length functions)) (map fun_label functions))).*1 = replicate (length functions) e.2.1).
        { change (map ?f ?x) with (f <$> x). rewrite <- list_fmap_compose. unfold compose. cbn [fst].
          transitivity (replicate (length (zip (seq 0 (length functions)) (map fun_label functions))) e.2.1).
          - apply list_eq. intros i. rewrite list_lookup_fmap. set (z := zip _ _). destruct (decide (i < length z)%nat) as [Hi|Hi].
            + destruct (lookup_lt_is_Some_2 z i Hi) as [x ->]. cbn. by rewrite lookup_replicate_2.
            + rewrite !lookup_ge_None_2; [done|rewrite replicate_length; lia|lia].
          - rewrite zip_with_length, seq_length, map_length. by rewrite Nat.min_id. }
        assert (E2 : map (λ p : list A * (nat * A), p.2.2) (map (pair e.2.1) (zip (seq 0 (length functions)) (map fun_label functions))) = map fun_label functions).
        { rewrite map_map. cbn [snd]. change (map (λ x : nat * A, x.2) ?x) with (x.*2). apply snd_zip. rewrite seq_length, map_length. done. }
        rewrite E1, E2. done. }
    rewrite keys_start. unfold fun_label in H at 1. rewrite H. cbn [app]. cbv zeta. f_equal.
    apply map_ext. intros m. change (map ?f ?x) with (f <$> x). by rewrite <- list_fmap_compose.
  Qed.
End keys.

(** ** tables of columns over one list of rows *)
Section build.
  Context {A T : Type} `{EqDecision T} (ty : A → T) (ps : Z) (none : A) (Hps : 0 < ps).
  Notation tbl := (table string A T).

  Definition dedup_from (used headers : list string) : option (list string) :=
    fold_left (λ acc h, cs ← acc; n ← unique_name h cs; Some (cs ++ [n])) headers (Some used).

  Lemma add_unique_spec (t : tbl) n vs :
    ∃ n', unique_name n t.*1 = Some n' ∧ n' ∉ t.*1 ∧ ∃ t', add_unique ty ps t n vs = Ok t' ∧
      contents t' = contents t ++ [(n', vs)] ∧ t'.*1 = t.*1 ++ [n'].
  Proof using Hps.
    destruct (unique_name_spec n t.*1) as (n' & Hn & Hf & _). exists n'. split_and!; [done..|].
    unfold add_unique. rewrite Hn. eexists. split; [done|]. unfold tbl_set. split.
    - rewrite contents_dset, dset_fresh.
      + unfold col_new. by rewrite col_extend_iter.
      + change ((contents t).*1) with (names (contents t)). by rewrite contents_names.
    - rewrite dset_fresh, fmap_app by done. done.
  Qed.
  Lemma add_uniques_spec (t : tbl) cols :
    ∃ ns t', add_uniques ty ps t cols = Ok t' ∧ dedup_from t.*1 cols.*1 = Some (t.*1 ++ ns) ∧ length ns = length cols ∧
      contents t' = contents t ++ zip ns cols.*2 ∧ t'.*1 = t.*1 ++ ns.
  Proof using Hps.
    revert t. induction cols as [|[n vs] cols IH]; intros t; cbn [add_uniques].
    - exists [], t. cbn. rewrite !app_nil_r. done.
    - destruct (add_unique_spec t n vs) as (n' & Hn & Hf & t1 & -> & Hc & Hk). cbn [res_bind].
      destruct (IH t1) as (ns & t' & -> & Hd & Hl & Hc' & Hk'). exists (n' :: ns), t'. split_and!; [done| | | |].
      + rewrite fmap_cons. cbn [fst]. unfold dedup_from in *. cbn [fold_left]. simpl mbind. rewrite Hn. simpl mbind.
        rewrite <- Hk, Hd, Hk, <- app_assoc. done.
      + cbn [length]. by rewrite Hl.
      + rewrite Hc', Hc, <- app_assoc. done.
      + rewrite Hk', Hk, <- app_assoc. done.
  Qed.
  Lemma add_uniques_app (t t1 : tbl) a b : add_uniques ty ps t a = Ok t1 → add_uniques ty ps t (a ++ b) = add_uniques ty ps t1 b.
  Proof.
    revert t. induction a as [|[n vs] a IH]; intros t; cbn [add_uniques app]; [by intros [= <-]|].
    destruct (add_unique ty ps t n vs) as [t0|]; [|done]. cbn [res_bind]. apply IH.
  Qed.

  Lemma rows_of {I} (ns : list string) (hs : list (I → A)) (idx : list I) : length ns = length hs → hs ≠ [] →
    rows none (zip ns (map (λ h, map h idx) hs)) = map (λ p, map (λ h, h p) hs) idx.
  Proof.
    intros Hl Hne. assert (Hs : (zip ns (map (λ h, map h idx) hs)).*2 = map (λ h, map h idx) hs) by (apply snd_zip; rewrite map_length; lia).
    assert (Hn : nrows (zip ns (map (λ h, map h idx) hs)) = length idx).
    { apply nrows_rect.
      - apply list.Forall_forall. intros [n l] Hin. apply (elem_of_list_fmap_1 snd) in Hin. rewrite Hs in Hin.
        apply elem_of_list_fmap in Hin as (h & -> & _). by rewrite map_length.
      - destruct hs; [done|]. by destruct ns. }
    unfold rows. rewrite Hn. apply list_eq. intros i. change (map ?f ?x) with (f <$> x). rewrite !list_lookup_fmap.
    destruct (decide (i < length idx)%nat) as [Hi|Hi].
    2:{ rewrite (lookup_ge_None_2 idx) by lia. rewrite lookup_seq_ge by lia. done. }
    rewrite lookup_seq_lt by done. destruct (lookup_lt_is_Some_2 idx i Hi) as [p Hp]. rewrite Hp. cbn [fmap option_fmap option_map]. f_equal.
    unfold row. transitivity (map (λ c : list A, default none (c !! i)) (zip ns (map (λ h, map h idx) hs)).*2).
    { change (?f <$> ?x) with (map f x). by rewrite map_map. }
    rewrite Hs, map_map. apply map_ext. intros h. change (map h idx) with (h <$> idx). rewrite list_lookup_fmap. by rewrite Hp.
  Qed.
End build.
