(** Printed tables are grids. *)
From Coq Require Import String.
From Verif.Spec Require Export Display.
From Verif.Proof Require Import DictLemmas SliceLemmas ColumnRead TableBase ExportProofs.
Local Open Scope list_scope.
Local Open Scope Z_scope.

(** ** Fields *)

Lemma padded_blanks w s x a b : padded w (replicate a 32 ++ s ++ replicate b 32) x → padded w s x.
Proof.
  intros (Hl & a' & b' & ->). split; [done|]. exists (a' + a)%nat, (b + b')%nat.
  rewrite !replicate_add, <- !app_assoc. done.
Qed.

Lemma ljust_padded s w : zlen s <= w → padded (Z.to_nat w) s (ljust s w).
Proof.
  intros H. unfold ljust, blanks_of. split.
  - rewrite app_length, replicate_length. lia.
  - by exists 0%nat, (Z.to_nat (w - zlen s)).
Qed.
Lemma rjust_padded s w : zlen s <= w → padded (Z.to_nat w) s (rjust s w).
Proof.
  intros H. unfold rjust, blanks_of. split.
  - rewrite app_length, replicate_length. lia.
  - exists (Z.to_nat (w - zlen s)), 0%nat. cbn. by rewrite app_nil_r.
Qed.
Lemma center_padded s w : zlen s <= w → padded (Z.to_nat w) s (center s w).
Proof.
  intros H. unfold center. destruct (Z.leb_spec w (zlen s)) as [H1|H1].
  { split; [lia|]. exists 0%nat, 0%nat. cbn. by rewrite app_nil_r. }
  set (left := _ + _). assert (0 <= left <= w - zlen s) as Hl.
  { subst left. pose proof (Z.div_mod (w - zlen s) 2 ltac:(lia)) as E. pose proof (Z.mod_pos_bound (w - zlen s) 2 ltac:(lia)).
    destruct (_ && _) eqn:Eo; [|lia].
    apply andb_true_iff in Eo as [Eo _]. rewrite Zmod_odd, Eo in E. lia. }
  unfold blanks_of. split.
  - rewrite !app_length, !replicate_length. lia.
  - by exists (Z.to_nat left), (Z.to_nat (w - zlen s - left)).
Qed.

(** *** Blanks around can be taken away *)
Fixpoint lstrip (s : list Z) : list Z := match s with 32 :: s => lstrip s | _ => s end.
Lemma lstrip_blanks a s : lstrip (replicate a 32 ++ s) = lstrip s.
Proof. induction a; done. Qed.
Lemma lstrip_head s : head s ≠ Some 32 → lstrip s = s.
Proof.
  destruct s as [|c s]; [done|]. cbn. intros H. destruct (decide (c = 32)) as [->|Hc]; [done|].
  destruct c as [|c|c]; try done. repeat (destruct c as [c|c|]; try done).
Qed.
Lemma last_head (l : list Z) : list.last l = head (rev l).
Proof.
  induction l as [|x l IH] using rev_ind; [done|]. by rewrite last_snoc, rev_app_distr.
Qed.
Lemma rev_replicate (n : nat) (c : Z) : rev (replicate n c) = replicate n c.
Proof. rewrite <- reverse_replicate at 2. unfold reverse. by rewrite rev_alt. Qed.

Lemma padded_inj w1 w2 s1 s2 x : padded w1 s1 x → padded w2 s2 x → unpadded s1 → unpadded s2 → s1 = s2.
Proof.
  assert (∀ a b s, unpadded s → rev (lstrip (rev (lstrip (replicate a 32 ++ s ++ replicate b 32)))) = s) as Hs.
  { intros a b s [Hh Hl]. rewrite lstrip_blanks. destruct s as [|c s].
    - cbn [app]. rewrite <- (app_nil_r (replicate b 32)), lstrip_blanks. done.
    - rewrite (lstrip_head ((c :: s) ++ _)) by done. rewrite rev_app_distr, rev_replicate, lstrip_blanks, lstrip_head.
      + apply rev_involutive.
      + by rewrite <- last_head. }
  intros (_ & a1 & b1 & ->) (_ & a2 & b2 & E) U1 U2.
  rewrite <- (Hs a1 b1 s1), <- (Hs a2 b2 s2) by done. by rewrite E.
Qed.

(** ** Lines *)
Lemma join_framed m (xs : list (list Z)) : xs ≠ [] → [m] ++ join_texts [m] xs ++ [m] = framed m xs.
Proof.
  unfold framed. induction xs as [|x xs IH]; [done|]. intros _. destruct xs as [|y xs]; [cbn; by rewrite app_nil_r|].
  change (join_texts [m] (x :: y :: xs)) with (x ++ [m] ++ join_texts [m] (y :: xs)).
  change (concat (map (cons m) (x :: y :: xs))) with ((m :: x) ++ concat (map (cons m) (y :: xs))).
  rewrite <- (app_assoc (m :: x)), <- IH by done. cbn [app]. by rewrite <- app_assoc.
Qed.

(** ** Numbers *)
Lemma groups_snoc rest ds g : groups 44 rest ds → Forall digit g → length g = 3%nat → groups 44 (rest ++ 44 :: g) (ds ++ g).
Proof.
  induction 1 as [|g' s ds' Hg Hl Hr IH]; intros H1 H2.
  - rewrite <- (app_nil_r g). cbn. apply groups_more; [done|done|constructor].
  - rewrite <- app_assoc. cbn [app]. rewrite <- app_assoc. apply groups_more; [done|done|]. by apply IH.
Qed.

Lemma group3_spec k : ∀ l, (length l <= k)%nat → l ≠ [] → Forall digit l →
  ∃ g rest ds, (1 <= length g <= 3)%nat ∧ groups 44 rest ds ∧ rev (group3 l) = g ++ rest ∧ rev l = g ++ ds.
Proof.
  induction k as [|k IH]; intros l Hk Hl Hd; [destruct l; [done|cbn in Hk; lia]|].
  destruct l as [|a l]; [done|]. destruct l as [|b l].
  { exists [a], [], []. split_and!; [cbn; lia|cbn; lia|constructor|done|done]. }
  destruct l as [|c l].
  { exists [b; a], [], []. split_and!; [cbn; lia|cbn; lia|constructor|done|done]. }
  destruct l as [|d l].
  { exists [c; b; a], [], []. split_and!; [cbn; lia|cbn; lia|constructor|done|done]. }
  apply list.Forall_cons in Hd as [Ha Hd]. apply list.Forall_cons in Hd as [Hb Hd]. apply list.Forall_cons in Hd as [Hc Hd].
  destruct (IH (d :: l)) as (g & rest & ds & H1 & H2 & H3 & H4); [cbn in *; lia|done|done|].
  exists g, (rest ++ [44; c; b; a]), (ds ++ [c; b; a]). split_and!; [lia|lia| | |].
  - apply groups_snoc; [done| |done]. do 3 (constructor; [done|]). constructor.
  - change (group3 (a :: b :: c :: d :: l)) with (a :: b :: c :: 44 :: group3 (d :: l)). cbn [rev]. rewrite H3, <- !app_assoc. done.
  - change (rev (a :: b :: c :: d :: l)) with (((rev (d :: l) ++ [c]) ++ [b]) ++ [a]). rewrite H4, <- !app_assoc. done.
Qed.

Lemma thousands_spec i : 0 <= i → with_commas i (thousands i).
Proof.
  intros Hi. destruct (python_int_dec i) as [Hd _]. rewrite Z.abs_eq in Hd by done.
  unfold thousands. assert (python_int i = dec (S (Z.to_nat (Z.log2 (Z.abs i)))) (Z.abs i)) as E.
  { unfold python_int. destruct (Z.ltb_spec i 0); [lia|done]. }
  rewrite Z.abs_eq in E by done. rewrite <- E in Hd. destruct Hd as (H1 & H2 & H3 & H4).
  destruct (group3_spec (length (rev (python_int i))) (rev (python_int i))) as (g & rest & ds & G1 & G2 & G3 & G4).
  - done.
  - intros E'. apply H1. rewrite <- (rev_involutive (python_int i)), E'. done.
  - apply list.Forall_forall. intros c Hc. apply elem_of_list_In, in_rev, elem_of_list_In in Hc. rewrite list.Forall_forall in H2. by apply H2.
  - rewrite rev_involutive in G4. exists g, rest, ds. split; [done|]. split; [done|]. split; [done|]. by rewrite <- G4.
Qed.

(** ** Dictionaries and rows *)
Lemma dset_fold {P V} (f : P → list Z) (g : P → V) (l : list P) : ∀ acc, NoDup (acc.*1 ++ map f l) →
  fold_left (λ d p, dset d (f p) (g p)) l acc = acc ++ map (λ p, (f p, g p)) l.
Proof.
  induction l as [|p l IH]; intros acc H; cbn [fold_left map]; [by rewrite app_nil_r|].
  cbn [map] in H. assert (dset acc (f p) (g p) = acc ++ [(f p, g p)]) as ->.
  { apply dset_fresh. intros Hin. apply NoDup_app in H as (_ & H & _). apply (H _ Hin). left. }
  rewrite IH; [by rewrite <- app_assoc|]. rewrite fmap_app, <- app_assoc. done.
Qed.

Lemma max_length_fold {K A} (a : K → list Z) (f : K → list A) n (ks : list K) : ∀ m,
  (∀ k, k ∈ ks → length (f k) = n) → (ks ≠ [] → (m <= n)%nat) →
  fold_left (λ m (p : list Z * list A), Nat.max m (List.length p.2)) (map (λ k, (a k, f k)) ks) m = (if decide (ks = []) then m else n).
Proof.
  induction ks as [|k ks IH]; intros m H Hm; [done|]. cbn [map fold_left snd]. rewrite IH.
  - assert (length (f k) = n) as -> by (apply H; left). specialize (Hm ltac:(done)).
    destruct (decide (ks = [])), (decide (k :: ks = [])); done || lia.
  - intros k' Hk. apply H. by right.
  - intros _. assert (length (f k) = n) as -> by (apply H; left). specialize (Hm ltac:(done)). lia.
Qed.

Lemma mapM_row {K A R} (a : K → list Z) (f : K → R → A) (rs : list R) i r (ks : list K) : rs !! i = Some r →
  mapM (λ p : list Z * list A, p.2 !! i) (map (λ k, (a k, map (f k) rs)) ks) = Some (map (λ k, f k r) ks).
Proof.
  intros H. induction ks as [|k ks IH]; [done|]. cbn [map mapM snd].
  change (mapM _ (map (λ k, (a k, map (f k) rs)) ks)) with (mapM (λ p : list Z * list A, p.2 !! i) (map (λ k, (a k, map (f k) rs)) ks)).
  rewrite IH. change (map (f k) rs) with (f k <$> rs). rewrite list_lookup_fmap, H. done.
Qed.

Lemma dict_to_rows_spec {K A R} (a : K → list Z) (f : K → R → A) (rs : list R) (ks : list K) : ks ≠ [] →
  dict_to_rows (map (λ k, (a k, map (f k) rs)) ks) = Ok (map (λ r, map (λ k, f k r) ks) rs).
Proof.
  intros Hk. unfold dict_to_rows. rewrite (max_length_fold a (λ k, map (f k) rs) (length rs)).
  - rewrite decide_False by done.
    enough (∀ pre rs', rs = pre ++ rs' →
      foldr (λ i rows, res_bind rows (λ rows, match mapM (λ p : list Z * list A, p.2 !! i) (map (λ k, (a k, map (f k) rs)) ks) with
        | Some row => Ok (row :: rows) | None => Err IndexError end)) (Ok []) (seq (length pre) (length rs'))
      = Ok (map (λ r, map (λ k, f k r) ks) rs')) as Hg by exact (Hg [] rs eq_refl).
    intros pre rs'. revert pre. induction rs' as [|r rs' IH]; intros pre E; [done|].
    cbn [List.length seq foldr map].
    replace (S (length pre)) with (length (pre ++ [r])) by (rewrite app_length; cbn; lia).
    rewrite (IH (pre ++ [r])) by (by rewrite <- app_assoc). cbn [res_bind].
    rewrite (mapM_row a f rs _ r); [done|]. rewrite E, list_lookup_middle; done.
  - intros k _. apply map_length.
  - intros _. lia.
Qed.

(** ** The grid *)
Section grid.
  Context (str : cell → list Z) (blanks : cell) (dtype : bool).
  Context {K R : Type} (ks : list K) (key : K → list Z) (lab : K → list Z) (val : K → R → cell) (text : K → R → list Z) (rs : list R).
  Hypothesis (Hstr : ∀ s, str (CStr s) = s).

  Definition shown_as (v : cell) (s : list Z) : Prop :=
    match v with
    | CNone => (length (str blanks) <= length (str CNone))%nat ∧ s = str blanks
    | CStr x => ∃ a b, x = replicate a 32 ++ s ++ replicate b 32
    | _ => s = str v
    end.
  Definition values_of (k : K) : list cell := (if dtype then [CStr (lab k)] else []) ++ map (val k) rs.
  Definition key_width (k : K) : Z := fold_left (λ m s, Z.max m (zlen s)) (map str (values_of k)) (zlen (key k)).

  Lemma width_fold (l : list (list Z)) : ∀ m,
    m <= fold_left (λ m s, Z.max m (zlen s)) l m ∧ ∀ s, s ∈ l → zlen s <= fold_left (λ m s, Z.max m (zlen s)) l m.
  Proof.
    induction l as [|x l IH]; intros m; cbn [fold_left]; [split; [lia|by intros s ?%elem_of_nil]|].
    destruct (IH (Z.max m (zlen x))) as [H1 H2]. split; [lia|].
    intros s [->|Hs]%elem_of_cons; [lia|]. by apply H2.
  Qed.
  Lemma width_key k : zlen (key k) <= key_width k.
  Proof. exact (proj1 (width_fold _ _)). Qed.
  Lemma width_val k v : v ∈ values_of k → zlen (str v) <= key_width k.
  Proof. intros H. apply (proj2 (width_fold _ _)). apply elem_of_list_fmap. by exists v. Qed.

  Lemma adjust_padded k v s : v ∈ values_of k → shown_as v s → padded (Z.to_nat (key_width k)) s (adjust str blanks v (key_width k)).
  Proof.
    intros Hv%width_val Hs. destruct v; cbn [shown_as adjust] in *;
      try (subst s; by apply rjust_padded).
    - destruct Hs as [Hl ->]. apply ljust_padded. lia.
    - destruct Hs as (a & b & ->). rewrite Hstr in Hv. eapply padded_blanks. by apply ljust_padded.
  Qed.

  Definition shown_val (k : K) (r : option R) : list Z :=
    match r with
    | None => adjust str blanks (CStr (center (lab k) (key_width k))) (key_width k)
    | Some r => adjust str blanks (val k r) (key_width k)
    end.
  Definition shown_rs : list (option R) := (if dtype then [None] else []) ++ map Some rs.

  Hypothesis (Hks : ks ≠ []).
  Hypothesis (Hnd : NoDup (map key ks)).
  Hypothesis (Hun : ∀ k, k ∈ ks → unpadded (key k)).
  Hypothesis (Htext : ∀ k r, k ∈ ks → r ∈ rs → shown_as (val k r) (text k r)).

  Lemma ascii_dict_spec : ascii_dict str blanks dtype (map (λ k, (key k, values_of k)) ks)
    = map (λ k, (center (key k) (key_width k), map (shown_val k) shown_rs)) ks.
  Proof.
    unfold ascii_dict.
    rewrite (dset_fold (λ p : list Z * list cell, center p.1 (fold_left (λ m s, Z.max m (zlen s)) (map str p.2) (zlen p.1)))
      (λ p, map (λ v, adjust str blanks v (fold_left (λ m s, Z.max m (zlen s)) (map str p.2) (zlen p.1)))
        (if dtype then center_first (fold_left (λ m s, Z.max m (zlen s)) (map str p.2) (zlen p.1)) p.2 else p.2))).
    - cbn [app]. rewrite map_map. apply map_ext. intros k. cbn [fst snd]. fold (key_width k). f_equal.
      unfold values_of, shown_rs. destruct dtype; cbn [app center_first]; rewrite ?map_app, ?map_map; cbn [map].
      + rewrite !map_map. done.
      + done.
    - cbn [fmap list_fmap app]. rewrite map_map. cbn [fst snd]. clear Htext.
      assert (NoDup (map key ks) → (∀ k, k ∈ ks → unpadded (key k)) → NoDup (map (λ k, center (key k) (key_width k)) ks)) as Hg.
      { clear. induction ks as [|k l IH]; intros Hnd Hun; [constructor|]. cbn [map] in *. apply list.NoDup_cons in Hnd as [H1 H2].
        apply list.NoDup_cons. split; [|apply IH; [done|intros; apply Hun; by right]].
        intros (k' & E & Hk')%elem_of_list_fmap. apply H1. apply elem_of_list_fmap. exists k'. split; [|done].
        eapply (padded_inj _ _ _ _ (center (key k) (key_width k))).
        - apply center_padded, width_key.
        - rewrite E. apply center_padded, width_key.
        - apply Hun; left.
        - apply Hun; by right. }
      by apply Hg.
  Qed.

  Definition widths : list nat := map (λ k, Z.to_nat (key_width k)) ks.

  Lemma line_of_map (texts : K → list Z) (xs : K → list Z) l : (∀ k, k ∈ l → padded (Z.to_nat (key_width k)) (texts k) (xs k)) → l ≠ [] →
    line_of (map (λ k, Z.to_nat (key_width k)) l) (map texts l) (bar (map xs l)).
  Proof.
    intros H Hl. exists (map xs l). split.
    - clear Hl. induction l as [|k l IH]; [constructor|]. cbn [map]. constructor; [apply H; left|]. apply IH. intros; apply H; by right.
    - unfold bar. apply join_framed. by destruct l.
  Qed.

  Lemma border_rule c : border c (map (λ k, center (key k) (key_width k)) ks) = rule c widths.
  Proof.
    unfold border, rule. rewrite <- join_framed by (unfold widths; by destruct ks). unfold widths. rewrite !map_map.
    erewrite map_ext; [done|]. intros k. cbn. by destruct (center_padded (key k) (key_width k) (width_key k)) as [-> _].
  Qed.

  Lemma grid_spec :
    ∃ lines, grid widths (map key ks) (if dtype then [map lab ks] else []) (map (λ r, map (λ k, text k r) ks) rs) lines ∧
    ∀ tail : list (list Z),
      (let d := ascii_dict str blanks dtype (map (λ k, (key k, values_of k)) ks) in
       res_map (λ rows,
         let names := d.*1 in
         [border 61 names; bar names] ++ (if dtype then map bar (take 1 rows) else []) ++ [border 45 names] ++
         map bar (if dtype then drop 1 rows else rows) ++ [border 61 names] ++ tail) (dict_to_rows d)) = Ok (lines ++ tail).
  Proof.
    rewrite ascii_dict_spec. cbv zeta. rewrite dict_to_rows_spec by done. cbn [res_map].
    assert ((map (λ k, (center (key k) (key_width k), map (shown_val k) shown_rs)) ks).*1 = map (λ k, center (key k) (key_width k)) ks) as ->.
    { change (?f <$> map ?g ?l) with (map f (map g l)). rewrite map_map. done. }
    rewrite !border_rule.
    exists ([rule 61 widths; bar (map (λ k, center (key k) (key_width k)) ks)] ++
      (if dtype then [bar (map (λ k, shown_val k None) ks)] else []) ++ [rule 45 widths] ++
      map bar (map (λ r, map (λ k, shown_val k (Some r)) ks) rs) ++ [rule 61 widths]).
    split.
    - eexists _, _, _. split_and!; [| | |reflexivity].
      + apply line_of_map; [|done]. intros k _. apply center_padded, width_key.
      + destruct dtype eqn:Ed; [|constructor]. constructor; [|constructor]. apply line_of_map; [|done]. intros k Hk.
        cbn [shown_val adjust].
        assert (zlen (lab k) <= key_width k) as Hw.
        { rewrite <- (Hstr (lab k)). apply width_val. unfold values_of. rewrite Ed. left. }
        destruct (center_padded (lab k) (key_width k) Hw) as (Hl & a & b & Ha).
        apply (padded_blanks _ _ _ a b). rewrite <- Ha. apply ljust_padded. lia.
      + rewrite map_map. apply Forall2_fmap_2. apply Forall_Forall2_diag, list.Forall_forall. intros r Hr.
        apply line_of_map; [|done]. intros k Hk. cbn [shown_val]. apply adjust_padded; [|by apply Htext].
        unfold values_of. apply elem_of_app. right. apply elem_of_list_fmap. by exists r.
    - intros tail. f_equal. unfold shown_rs. destruct dtype; cbn [app take drop map].
      + rewrite take_0, drop_0, !map_map. cbn [map app]. rewrite <- !app_assoc. done.
      + rewrite !map_map. rewrite <- !app_assoc. done.
  Qed.
End grid.

(** ** Values of the rows shown *)
Lemma padded_lookup {A} (d : A) (l : list A) m i : (i < length l + m)%nat → (l ++ replicate m d) !! i = Some (default d (l !! i)).
Proof.
  intros H. destruct (decide (i < length l)%nat) as [Hi|Hi].
  - rewrite lookup_app_l by done. apply lookup_lt_is_Some_2 in Hi as [x ->]. done.
  - rewrite lookup_app_r by lia. rewrite lookup_replicate_2 by lia. rewrite (lookup_ge_None_2 l i) by lia. done.
Qed.

Lemma take_drop_map {A} (d : A) (l : list A) m a k : (a + k <= length l + m)%nat →
  take k (drop a (l ++ replicate m d)) = map (λ i, default d (l !! i)) (seq a k).
Proof.
  intros H. apply list_eq. intros i. change (map ?f ?l) with (f <$> l). rewrite list_lookup_fmap.
  destruct (decide (i < k)%nat) as [Hi|Hi].
  - rewrite lookup_take, lookup_drop by done. rewrite padded_lookup by lia. rewrite lookup_seq_lt by done. done.
  - rewrite lookup_take_ge by lia. rewrite lookup_seq_ge by lia. done.
Qed.

Lemma slice_positions_range n s i : sl_stepv s ≠ 0 → i ∈ slice_positions (seq 0 n) s → 0 <= i < Z.of_nat n.
Proof.
  intros Hs. unfold slice_positions. rewrite seq_length. destruct (slice_indices s (Z.of_nat n)) as [[a b] st] eqn:E.
  destruct (Z.lt_total (sl_stepv s) 0) as [Hn|[Hz|Hp]]; [| done |].
  - apply slice_indices_neg in E as (H1 & H2 & ->); [|lia|done]. intros H%elem_of_py_range_neg; [|lia]. lia.
  - apply slice_indices_pos in E as (H1 & H2 & ->); [|lia|done]. intros H%elem_of_py_range; [|lia]. unfold in_range in H. lia.
Qed.

Lemma getslice_map {A} (d : A) (l : list A) m s n : sl_stepv s ≠ 0 → (length l + m = n)%nat →
  py_getslice (l ++ replicate m d) s = map (λ i, default d (l !! Z.to_nat i)) (slice_positions (seq 0 n) s).
Proof.
  intros Hs Hn. unfold py_getslice.
  assert (slice_positions (l ++ replicate m d) s = slice_positions (seq 0 n) s) as ->.
  { unfold slice_positions. by rewrite app_length, replicate_length, seq_length, Hn. }
  assert (∀ i, i ∈ slice_positions (seq 0 n) s → 0 <= i < Z.of_nat n) as Hr by (intros i; by apply slice_positions_range).
  revert Hr. generalize (slice_positions (seq 0 n) s). intros ps Hr. induction ps as [|i ps IH]; [done|].
  rewrite omap_cons. assert (0 <= i < Z.of_nat n) as Hi by (apply Hr; left).
  rewrite znth_lookup, padded_lookup by lia. cbn [map]. f_equal. apply IH. intros j Hj. apply Hr. by right.
Qed.

Lemma py_range_seq n : py_range 0 (Z.of_nat n) 1 = map Z.of_nat (seq 0 n).
Proof.
  unfold py_range, range_count. change (0 <? 1) with true. cbv iota. rewrite Z.div_1_r. replace (Z.of_nat n - 0 + 1 - 1) with (Z.of_nat n) by lia.
  unfold seqZ. rewrite Nat2Z.id. change (?f <$> ?l) with (map f l). rewrite map_map. apply map_ext. intros. lia.
Qed.
Lemma py_range_seq_from (a : Z) n : 0 <= a → py_range a (a + Z.of_nat n) 1 = map Z.of_nat (seq (Z.to_nat a) n).
Proof.
  intros Ha. unfold py_range, range_count. change (0 <? 1) with true. cbv iota. rewrite Z.div_1_r. replace (a + Z.of_nat n - a + 1 - 1) with (Z.of_nat n) by lia.
  unfold seqZ. rewrite Nat2Z.id. change (?f <$> ?l) with (map f l). rewrite map_map. 
  rewrite <- (Nat.add_0_r (Z.to_nat a)). rewrite <- fmap_add_seq. change (?f <$> ?l) with (map f l). rewrite map_map. apply map_ext. intros. lia.
Qed.

Lemma first_slice n : (n <= 20)%nat → slice_positions (seq 0 n) (Slice (Some 0) (Some 20) (Some 1)) = map Z.of_nat (seq 0 n).
Proof.
  intros H. unfold slice_positions. rewrite seq_length. unfold slice_indices. cbn.
  rewrite Z.min_l, Z.min_r by lia. apply py_range_seq.
Qed.

(** ** The printed table *)
Section table.
  Context {T : Type} `{EqDecision T} (type_name : T → list Z) (str : cell → list Z).
  Context (t : table (list Z) cell T) (slice_ : option pyslice) (blanks : cell) (dtype : bool).
  Local Notation n := (nrows (contents t)).
  Hypothesis (Ht : t ≠ []).
  Hypothesis (Hnd : NoDup t.*1).
  Hypothesis (Hun : Forall unpadded t.*1).
  Hypothesis (Htag : ∃ tag, tag ∈ row_count_tags ∧ tag ∉ t.*1).
  Hypothesis (Hstr : ∀ s, str (CStr s) = s).
  Hypothesis (Hblanks : (length (str blanks) <= length (str CNone))%nat ∨ ∀ c, c ∈ t → CNone ∉ col_iter c.2).
  Hypothesis (Hslice : ∀ s, slice_ = Some s → sl_stepv s ≠ 0).
  Hypothesis (Hlong : slice_ = None → (20 < n)%nat → ∀ c, c ∈ t → length (col_iter c.2) = n ∨ (length (col_iter c.2) + 7 <= n)%nat).

  Local Notation kind := (option (list Z * column cell T)).
  Definition kinds : list kind := None :: map Some t.
  Definition kkey (k : kind) : list Z := match k with Some c => c.1 | None => row_tag t end.
  Definition klab (k : kind) : list Z := match k with Some c => datatype type_name c.2 | None => bytes_of "row" end.
  Definition number_pad : Z := match display_slice t slice_ with Some _ => 2 | None => number_width (tbl_len t) end.
  Definition num_text (r : option nat) : list Z := match r with Some i => thousands (Z.of_nat i) | None => dots end.
  Definition kval (k : kind) (r : option nat) : cell :=
    match k, r with
    | Some c, Some i => default blanks (col_iter c.2 !! i)
    | None, Some i => CStr (rjust (thousands (Z.of_nat i)) number_pad)
    | _, None => CStr dots
    end.
  Definition ktext (k : kind) (r : option nat) : list Z :=
    match k with Some c => cell_text str blanks (col_iter c.2) r | None => num_text r end.

  Lemma row_tag_free : row_tag t ∈ row_count_tags ∧ row_tag t ∉ t.*1.
  Proof using Htag.
    destruct Htag as (tag & H1 & H2). unfold row_tag.
    destruct (filter (λ tag, tag ∉ t.*1) row_count_tags) as [|x l] eqn:E.
    - exfalso. assert (tag ∈ filter (λ tag, tag ∉ t.*1) row_count_tags) as H by (by apply elem_of_list_filter).
      rewrite E in H. by apply elem_of_nil in H.
    - assert (x ∈ filter (λ tag, tag ∉ t.*1) row_count_tags) as H by (rewrite E; left).
      apply elem_of_list_filter in H as [? ?]. done.
  Qed.
  Lemma tags_unpadded : Forall unpadded row_count_tags.
  Proof. unfold row_count_tags. cbn. repeat (constructor; [done|]). constructor. Qed.

  Lemma kinds_nodup : NoDup (map kkey kinds).
  Proof.
    unfold kinds. cbn [map kkey]. rewrite map_map. apply list.NoDup_cons. split; [|exact Hnd].
    exact (proj2 row_tag_free).
  Qed.
  Lemma kinds_unpadded k : k ∈ kinds → unpadded (kkey k).
  Proof.
    unfold kinds. intros [->|(c & -> & Hc)%elem_of_list_fmap]%elem_of_cons; cbn [kkey].
    - pose proof tags_unpadded as H. rewrite list.Forall_forall in H. apply H, row_tag_free.
    - rewrite list.Forall_forall in Hun. apply Hun. apply elem_of_list_fmap. by exists c.
  Qed.
  Lemma kinds_shown k r : k ∈ kinds → shown_as str blanks (kval k r) (ktext k r).
  Proof.
    unfold kinds. intros [->|(c & -> & Hc)%elem_of_list_fmap]%elem_of_cons; destruct r as [i|]; cbn [kval ktext num_text cell_text shown_as].
    - unfold rjust, blanks_of. eexists _, 0%nat. cbn. by rewrite app_nil_r.
    - exists 0%nat, 0%nat. done.
    - destruct (col_iter c.2 !! i) as [v|] eqn:E; cbn [default id].
      + destruct v; cbn; try done.
        * destruct Hblanks as [Hb|Hb]; [done|]. exfalso. apply (Hb c Hc). by eapply elem_of_list_lookup_2.
        * exists 0%nat, 0%nat. cbn. by rewrite Hstr, app_nil_r.
      + destruct blanks; cbn; try done. exists 0%nat, 0%nat. cbn. by rewrite Hstr, app_nil_r.
    - exists 0%nat, 0%nat. done.
  Qed.

  Lemma fill_data_spec column_of f cols : ∀ data, (∀ c, c ∈ cols → column_of c.2 = Ok (f c)) → NoDup (data.*1 ++ cols.*1) →
    fill_data (T := T) column_of cols data = Ok (data ++ map (λ c, (c.1, f c)) cols).
  Proof using Type.
    induction cols as [|c cols IH]; intros data Hc Hn; cbn [fill_data map]; [by rewrite app_nil_r|].
    rewrite (Hc c) by left. cbn [res_bind].
    assert (dset data c.1 (f c) = data ++ [(c.1, f c)]) as ->.
    { apply dset_fresh. intros Hin. apply NoDup_app in Hn as (_ & H & _). apply (H _ Hin). left. }
    rewrite IH; [by rewrite <- app_assoc| |rewrite fmap_app, <- app_assoc; done]. intros c' Hc'. apply Hc. by right.
  Qed.

  Lemma column_le c : c ∈ t → (length (col_iter c.2) <= n)%nat.
  Proof using Type.
    intros H. apply (nrows_le _ c.1). unfold contents. apply elem_of_list_fmap. by exists c.
  Qed.

  Lemma long_column_spec c : c ∈ t → (20 < n)%nat → length (col_iter c.2) = n ∨ (length (col_iter c.2) + 7 <= n)%nat →
    long_column blanks (Z.of_nat n) c.2 = Ok (map (kval (Some c)) (map Some (seq 0 7) ++ [None] ++ map Some (seq (n - 7) 7))).
  Proof using Type.
    clear Hlong Hslice Hblanks Htag Hun Hnd Ht Hstr. intros Hc Hn Hl. unfold long_column. rewrite !col_getslice_pos by done. cbn [res_bind].
    rewrite !map_app, !map_map. cbn [map kval]. set (l := col_iter c.2) in *. rewrite col_len_iter. fold l.
    rewrite getslice_upto by lia. change (Z.to_nat 7) with 7%nat.
    destruct (Z.eqb_spec (zlen l) (Z.of_nat n)) as [E|E].
    - f_equal. f_equal.
      + rewrite <- (take_drop_map blanks l 0 0 7) by lia. by rewrite drop_0, app_nil_r.
      + f_equal. rewrite <- (take_drop_map blanks l 0 (n - 7) 7) by lia. rewrite app_nil_r.
        rewrite take_ge by (rewrite drop_length; lia).
        erewrite py_getslice_simple; [|done|reflexivity]. cbn [sl_start sl_stop sl_stepv sl_step default Z.ltb Z.compare].
        rewrite (take_ge l) by lia. f_equal. cbn. lia.
    - assert (zlen l + 7 <= Z.of_nat n) as Hl' by lia. f_equal. f_equal.
      + rewrite getslice_upto by lia. change (Z.to_nat 7) with 7%nat.
        rewrite <- (take_drop_map blanks l 7 0 7) by lia. rewrite drop_0.
        destruct (decide (7 <= length l)%nat) as [H7|H7].
        * rewrite !take_app_le by (rewrite ?take_length; lia). rewrite take_take. done.
        * rewrite (take_ge l) by lia. done.
      + f_equal. rewrite (getslice_from l) by lia. rewrite (drop_ge l) by lia. cbn [app].
        rewrite <- (take_drop_map blanks l (n - length l) (n - 7) 7) by lia.
        rewrite drop_app_ge by lia. rewrite drop_replicate, take_replicate.
        replace (7 `min` (n - length l - (n - 7 - length l)))%nat with 7%nat by lia. done.
  Qed.

  Lemma display_dict_spec : display_dict type_name t slice_ blanks dtype
    = Ok (map (λ k, (kkey k, values_of dtype klab kval (shown_rows n slice_) k)) kinds).
  Proof using Hnd Htag Hslice Hlong.
    clear Hblanks Hun Ht Hstr.
    assert (match display_slice t slice_ with
      | Some s =>
          if sl_stepv s =? 0 then Err ValueError
          else
            let '(start, stop, step) := slice_indices s (tbl_len t) in
            let row_no := py_range start stop step in
            fill_data (λ c, Ok (py_getslice (col_iter c ++ replicate (Z.to_nat (tbl_len t - col_len c)) blanks) s)) t
              [(row_tag t, map (λ i, CStr (rjust (thousands i) 2)) row_no)]
      | None =>
          let j := number_width (tbl_len t) in
          let number i := CStr (rjust (thousands i) j) in
          fill_data (long_column blanks (tbl_len t)) t
            [(row_tag t, map number (py_range 0 7 1) ++ [CStr (bytes_of "...")] ++ map number (py_range (tbl_len t - 7) (tbl_len t) 1))]
      end = Ok (map (λ k, (kkey k, map (kval k) (shown_rows n slice_))) kinds)) as Hdata.
    { assert (∀ s rs, display_slice t slice_ = Some s → sl_stepv s ≠ 0 → rs = map (λ i, Some (Z.to_nat i)) (slice_positions (seq 0 n) s) →
        (if sl_stepv s =? 0 then Err ValueError
          else
            let '(start, stop, step) := slice_indices s (tbl_len t) in
            let row_no := py_range start stop step in
            fill_data (λ c, Ok (py_getslice (col_iter c ++ replicate (Z.to_nat (tbl_len t - col_len c)) blanks) s)) t
              [(row_tag t, map (λ i, CStr (rjust (thousands i) 2)) row_no)])
        = Ok (map (λ k, (kkey k, map (kval k) rs)) kinds)) as Hs.
      { intros s rs Hd Hs ->. destruct (Z.eqb_spec (sl_stepv s) 0) as [?|_]; [done|].
        pose proof (slice_positions_range n s) as Hr.
        assert (slice_positions (seq 0 n) s = let '(a, b, st) := slice_indices s (tbl_len t) in py_range a b st) as E.
        { unfold slice_positions. by rewrite seq_length, tbl_len_spec. }
        destruct (slice_indices s (tbl_len t)) as [[a b] st]. cbv zeta. rewrite <- E. clear E.
        rewrite (fill_data_spec _ (λ c, map (λ i, default blanks (col_iter c.2 !! Z.to_nat i)) (slice_positions (seq 0 n) s))).
        - f_equal. unfold kinds. cbn [map app kkey]. f_equal.
          + f_equal. rewrite map_map. apply map_ext_in. intros i Hi%elem_of_list_In. cbn [kval]. unfold number_pad. rewrite Hd.
            apply Hr in Hi; [|done]. by rewrite Z2Nat.id by lia.
          + rewrite map_map. apply map_ext. intros c. cbn [kkey]. f_equal. by rewrite map_map.
        - intros c Hc. f_equal. apply getslice_map; [done|]. pose proof (column_le c Hc). rewrite tbl_len_spec, col_len_iter. lia.
        - cbn [fmap list_fmap app fst]. apply list.NoDup_cons. split; [apply row_tag_free|done]. }
      unfold shown_rows, display_slice in *. destruct slice_ as [s|] eqn:Es.
      - apply Hs; [done|by apply Hslice|done].
      - rewrite tbl_len_spec in *. destruct (Z.leb_spec (Z.of_nat n) 20) as [H20|H20].
        + rewrite decide_True by lia. apply Hs; [done|done|]. rewrite first_slice by lia. rewrite map_map. apply map_ext. intros i. by rewrite Nat2Z.id.
        + rewrite decide_False by lia. cbv zeta.
          rewrite (fill_data_spec _ (λ c, map (kval (Some c)) (map Some (seq 0 7) ++ [None] ++ map Some (seq (n - 7) 7)))).
          * f_equal. unfold kinds. cbn [map app kkey]. f_equal; [|by rewrite map_map]. f_equal.
            assert (number_pad = number_width (Z.of_nat n)) as Hp.
            { unfold number_pad, display_slice. rewrite Es, tbl_len_spec. destruct (Z.leb_spec (Z.of_nat n) 20); [lia|done]. }
            change 7 with (Z.of_nat 7) at 1. rewrite py_range_seq. rewrite !map_app, !map_map. cbn [map kval]. rewrite Hp. f_equal. f_equal.
            replace (py_range (Z.of_nat n - 7) (Z.of_nat n) 1) with (map Z.of_nat (seq (n - 7) 7)).
            { rewrite !map_map. cbn [kval]. by rewrite Hp. }
            replace (n - 7)%nat with (Z.to_nat (Z.of_nat n - 7)) by lia. rewrite <- py_range_seq_from by lia. f_equal. lia.
          * intros c Hc. apply long_column_spec; [done|lia|apply Hlong; [done|lia|done]].
          * cbn [fmap list_fmap app fst]. apply list.NoDup_cons. split; [apply row_tag_free|done]. }
    unfold display_dict. cbv zeta in Hdata |- *. rewrite Hdata. unfold values_of. destruct dtype; cbn [app]; [|done]. cbn [res_map]. f_equal.
    rewrite map_map. apply map_ext_in. intros k Hk%elem_of_list_In. cbn [fst snd]. unfold kinds in Hk.
    apply elem_of_cons in Hk as [->|(c & -> & Hc)%elem_of_list_fmap]; cbn [kkey klab].
    - assert (dget t (row_tag t) = None) as -> by (apply dget_None, row_tag_free). done.
    - assert (dget t c.1 = Some c.2) as ->; [|done]. apply dget_Some; [done|]. by destruct c.
  Qed.
End table.

Lemma datatype_label {T} `{EqDecision T} (type_name : T → list Z) (ty : cell → T) (c : column cell T) :
  counts_exactly (col_types c) (map ty (col_iter c)) → type_label type_name (map ty (col_iter c)) (datatype type_name c).
Proof.
  set (ts := map ty (col_iter c)). intros H%counts_cdict. destruct H as [Hn H].
  assert (∀ x, x ∈ ts ↔ x ∈ (col_types c).*1) as Hin.
  { intros x. specialize (H x). split; intros Hx.
    - destruct (decide (x ∈ (col_types c).*1)) as [?|Hno]; [done|]. apply dget_None in Hno. rewrite Hno in H.
      apply cnt_elem in Hx. by rewrite decide_True in H.
    - destruct (decide (x ∈ ts)) as [?|Hno]; [done|]. apply cnt_zero in Hno. rewrite Hno, decide_False in H by lia. by apply dget_None in H. }
  unfold datatype, type_label. clear H. destruct (col_types c) as [|[x k] [|[y k'] d]].
  - left. split; [|done]. destruct ts as [|x ts]; [done|]. exfalso. apply (elem_of_nil x), (Hin x). left.
  - right. left. exists x. split_and!; [| |done].
    + intros E. rewrite E in Hin. apply (elem_of_nil x), Hin. left.
    + intros y Hy%Hin. cbn in Hy. by apply elem_of_list_singleton in Hy.
  - right. right. exists x, y. split_and!; [apply Hin; left|apply Hin; right; left| |done].
    cbn in Hn. apply list.NoDup_cons in Hn as [Hn _]. intros ->. apply Hn. left.
Qed.

Lemma warning_spec {T} str (t : table (list Z) cell T) blanks : t ≠ [] →
  rect (nrows (contents t)) (contents t) ∧ warning str t blanks = [] ∨
  ¬ rect (nrows (contents t)) (contents t) ∧
    warning str t blanks = [bytes_of "Warning: Columns have different lengths. " ++ str blanks ++ bytes_of " is used as fill value."].
Proof.
  intros Ht. unfold warning. destruct t as [|c t]; [done|]. cbn [map head default id].
  destruct (forallb _ _) eqn:E; [left|right]; (split; [|done]).
  - rewrite forallb_forall in E.
    assert (rect (length (col_iter c.2)) (contents (c :: t))) as Hr.
    { unfold rect, contents. apply list.Forall_forall. intros p (c' & -> & Hc')%elem_of_list_fmap. cbn [snd].
      specialize (E (col_len c'.2)).
      change (col_len c.2 :: map (λ c, col_len c.2) t) with (map (λ c : list Z * column cell T, col_len c.2) (c :: t)) in E.
      assert (col_len c'.2 = col_len c.2) as E' by (apply Z.eqb_eq, E, elem_of_list_In, elem_of_list_fmap; by exists c').
      rewrite !col_len_iter in E'. lia. }
    by rewrite (nrows_rect _ _ Hr).
  - intros Hr. apply not_true_iff_false in E. apply E. apply forallb_forall. intros l Hl%elem_of_list_In.
    unfold rect in Hr. rewrite list.Forall_forall in Hr.
    assert (∀ c', c' ∈ c :: t → col_len c'.2 = Z.of_nat (nrows (contents (c :: t)))) as Hc.
    { intros c' Hc'. rewrite col_len_iter. f_equal. apply (Hr (c'.1, col_iter c'.2)). apply elem_of_list_fmap. by exists c'. }
    change (col_len c.2 :: map (λ c, col_len c.2) t) with (map (λ c : list Z * column cell T, col_len c.2) (c :: t)) in Hl.
    apply elem_of_list_fmap in Hl as (c' & -> & Hc'). rewrite !Hc by (done || left). apply Z.eqb_refl.
Qed.

Section final.
  Context {T : Type} `{EqDecision T} (type_name : T → list Z) (ty : cell → T) (str : cell → list Z).
  Context (t : table (list Z) cell T) (slice_ : option pyslice) (blanks : cell) (dtype : bool).

  Lemma to_ascii_grid :
    let v := contents t in
    let n := nrows v in
    t ≠ [] → NoDup (names v) → Forall unpadded (names v) → (∃ tag, tag ∈ row_count_tags ∧ tag ∉ names v) →
    (∀ s, str (CStr s) = s) →
    ((length (str blanks) <= length (str CNone))%nat ∨ Forall (λ c, CNone ∉ c.2) v) →
    (∀ s, slice_ = Some s → sl_stepv s ≠ 0) →
    (slice_ = None → (20 < n)%nat → Forall (λ c, length c.2 = n ∨ (length c.2 + 7 <= n)%nat) v) →
    (dtype = true → Forall (λ c, counts_exactly (col_types c.2) (map ty (col_iter c.2))) t) →
    ∃ tag nums labels ws lines rest,
      to_ascii type_name str t slice_ blanks dtype = Ok (join_texts [10] (lines ++ rest)) ∧
      tag ∉ names v ∧ Forall2 row_label (shown_rows n slice_) nums ∧
      (dtype = true → Forall2 (λ c, type_label type_name (map ty c.2)) v labels) ∧
      grid ws (tag :: names v) (if dtype then [bytes_of "row" :: labels] else [])
        (zip_with (λ r num, num :: map (λ c, cell_text str blanks c.2 r) v) (shown_rows n slice_) nums) lines ∧
      (rect n v ∧ rest = [] ∨
       ¬ rect n v ∧ rest = [bytes_of "Warning: Columns have different lengths. " ++ str blanks ++ bytes_of " is used as fill value."]).
  Proof.
    intros v n Ht Hnd Hun Htag Hstr Hb Hs Hl Hty.
    assert (names v = t.*1) as Hnames. { unfold names, v, contents. change (?f <$> map ?g ?l) with (map f (map g l)). by rewrite map_map. }
    rewrite Hnames in *.
    assert (∀ c, c ∈ t → (c.1, col_iter c.2) ∈ v) as Hin by (intros c Hc; apply elem_of_list_fmap; by exists c).
    destruct (grid_spec str blanks dtype (kinds t) (kkey t) (klab type_name) (kval t slice_ blanks) (ktext str blanks) (shown_rows n slice_))
      as (lines & Hg & Hr).
    - done.
    - done.
    - by apply kinds_nodup.
    - intros k. by apply kinds_unpadded.
    - intros k r Hk _. apply kinds_shown; [done| |done]. destruct Hb as [Hb|Hb]; [by left|right]. intros c Hc.
      rewrite list.Forall_forall in Hb. exact (Hb _ (Hin c Hc)).
    - exists (row_tag t), (map num_text (shown_rows n slice_)), (map (λ c, datatype type_name c.2) t), (widths str dtype (kinds t) (kkey t) (klab type_name) (kval t slice_ blanks) (shown_rows n slice_)), lines, (warning str t blanks).
      split_and!.
      + unfold to_ascii. rewrite decide_False by done. unfold ascii_lines. rewrite (display_dict_spec type_name t slice_ blanks dtype); try done.
        * cbn [res_bind]. cbv zeta in Hr |- *. by rewrite Hr.
        * intros E1 E2 c Hc. specialize (Hl E1 E2). rewrite list.Forall_forall in Hl. exact (Hl _ (Hin c Hc)).
      + by apply row_tag_free.
      + apply Forall2_fmap_r, Forall_Forall2_diag, list.Forall_forall. intros [i|] _; cbn; [|done]. apply thousands_spec. lia.
      + intros Ed. specialize (Hty Ed). unfold v, contents. apply Forall2_fmap_2, Forall_Forall2_diag, list.Forall_forall. intros c Hc. cbn [snd].
        apply datatype_label. rewrite list.Forall_forall in Hty. by apply Hty.
      + unfold kinds in Hg. cbn [map kkey klab ktext] in Hg. rewrite !map_map in Hg. cbn [kkey klab] in Hg.
        assert (zip_with (λ r num, num :: map (λ c, cell_text str blanks c.2 r) v) (shown_rows n slice_) (map num_text (shown_rows n slice_))
          = map (λ r, num_text r :: map (λ k, ktext str blanks k r) (map Some t)) (shown_rows n slice_)) as ->; [|exact Hg].
        generalize (shown_rows n slice_). intros rs. induction rs as [|r rs IH]; [done|]. cbn [map zip_with]. f_equal; [|done].
        f_equal. unfold v, contents. by rewrite !map_map.
      + by apply warning_spec.
  Qed.

  Lemma repr_html_spec :
    let v := contents t in
    let n := nrows v in
    t ≠ [] → NoDup (names v) → (∃ tag, tag ∈ row_count_tags ∧ tag ∉ names v) → (∀ s, str (CStr s) = s) →
    (∀ s, slice_ = Some s → sl_stepv s ≠ 0) →
    (slice_ = None → (20 < n)%nat → Forall (λ c, length c.2 = n ∨ (length c.2 + 7 <= n)%nat) v) →
    (dtype = true → Forall (λ c, counts_exactly (col_types c.2) (map ty (col_iter c.2))) t) →
    ∃ tag nums labels rest,
      repr_html type_name str t slice_ blanks dtype = Ok (html ([tag :: names v] ++ (if dtype then [bytes_of "row" :: labels] else []) ++
        zip_with (λ r num, num :: map (λ c, value_text str blanks c.2 r) v) (shown_rows n slice_) nums) ++ rest) ∧
      tag ∉ names v ∧ Forall2 (λ r num, ∃ k s, num = replicate k 32 ++ s ∧ row_label r s) (shown_rows n slice_) nums ∧
      (dtype = true → Forall2 (λ c, type_label type_name (map ty c.2)) v labels) ∧
      (rect n v ↔ rest = []).
  Proof.
    intros v n Ht Hnd Htag Hstr Hs Hl Hty.
    assert (names v = t.*1) as Hnames. { unfold names, v, contents. change (?f <$> map ?g ?l) with (map f (map g l)). by rewrite map_map. }
    rewrite Hnames in *.
    assert (∀ c, c ∈ t → (c.1, col_iter c.2) ∈ v) as Hin by (intros c Hc; apply elem_of_list_fmap; by exists c).
    exists (row_tag t), (map (λ r, str (kval t slice_ blanks None r)) (shown_rows n slice_)), (map (λ c, datatype type_name c.2) t), (concat (warning str t blanks)).
    split_and!.
    - unfold repr_html. rewrite decide_False by done. rewrite (display_dict_spec type_name t slice_ blanks dtype); try done.
      2: { intros E1 E2 c Hc. specialize (Hl E1 E2). rewrite list.Forall_forall in Hl. exact (Hl _ (Hin c Hc)). }
      cbn [res_bind].
      assert (map (λ k, (kkey t k, values_of dtype (klab type_name) (kval t slice_ blanks) (shown_rows n slice_) k)) (kinds t)
        = map (λ k, (kkey t k, map (λ r, match r with None => CStr (klab type_name k) | Some r => kval t slice_ blanks k r end)
            ((if dtype then [None] else []) ++ map Some (shown_rows n slice_)))) (kinds t)) as Hv.
      { apply map_ext. intros k. f_equal. unfold values_of. rewrite map_app, map_map. by destruct dtype. }
      change (nrows (contents t)) with n. rewrite Hv. cbv zeta. rewrite dict_to_rows_spec by done. cbn [res_map].
      f_equal. unfold html. rewrite <- !app_assoc. f_equal. cbn [map app concat]. rewrite <- !app_assoc. f_equal.
      + unfold kinds. cbn [map fmap list_fmap fst kkey]. f_equal. f_equal. change (?f <$> ?l) with (map f l). by rewrite !map_map.
      + f_equal. rewrite !map_app, !concat_app. f_equal.
        * destruct dtype; [|done]. cbn [map concat]. f_equal. unfold kinds. cbn [map klab]. rewrite !map_map. cbn [klab]. rewrite Hstr. f_equal. f_equal.
          apply map_ext. intros c. by rewrite Hstr.
        * f_equal. rewrite !map_map. generalize (shown_rows n slice_). intros rs. induction rs as [|r rs IH]; [done|]. cbn [map zip_with]. f_equal; [|done].
          unfold kinds. cbn [map]. f_equal. rewrite !map_map. f_equal. unfold v, contents. rewrite map_map. apply map_ext. intros c. destruct r as [i|]; cbn; [done|apply Hstr].
    - by apply row_tag_free.
    - apply Forall2_fmap_r, Forall_Forall2_diag, list.Forall_forall. intros [i|] _.
      + eexists _, _. split; [cbn [kval]; rewrite Hstr; unfold rjust, blanks_of; reflexivity|]. apply thousands_spec. lia.
      + exists 0%nat, dots. split; [apply Hstr|done].
    - intros Ed. specialize (Hty Ed). unfold v, contents. apply Forall2_fmap_2, Forall_Forall2_diag, list.Forall_forall. intros c Hc. cbn [snd].
      apply datatype_label. rewrite list.Forall_forall in Hty. by apply Hty.
    - destruct (warning_spec str t blanks Ht) as [[? ->]|[? ->]]; done.
  Qed.
End final.

(** ** Reading HTML *)
Lemma find_last chunk sub : (2 <= length sub)%nat → py_find chunk sub (-1) = -1.
Proof.
  intros H. unfold py_find. destruct chunk as [|c l] using rev_ind; [|clear IHl].
  - cbn. destruct sub as [|a [|b sub]]; cbn in H; try lia. done.
  - rewrite app_length. cbn [List.length Z.ltb Z.compare].
    replace (Z.max 0 (-1 + Z.of_nat (length l + 1))) with (zlen l) by lia.
    destruct (Z.ltb_spec (Z.of_nat (length l + 1)) (zlen l)); [lia|].
    rewrite Nat2Z.id, drop_app. destruct sub as [|a [|b sub]]; cbn in H; try lia. cbn. by rewrite !decide_False by done.
Qed.
Lemma html_scan_None reads : ∀ chunk, html_scan chunk (-1) (-1) reads = None.
Proof.
  induction reads as [|new reads IH]; intros chunk; cbn [html_scan]; rewrite !find_last by (cbn; lia); cbn [Z.eqb orb]; [done|].
  case_decide; [done|]. apply IH.
Qed.
Lemma from_html_None {R} (rows : list Z * Z * Z * list (list Z) → res (option R)) reads : from_html rows reads = Ok None.
Proof.
  unfold from_html. destruct reads as [|new reads]; cbn [html_scan]; [done|]. case_decide; [done|].
  change (py_find [] (bytes_of "<tr>") 0) with (-1). change (py_find [] (bytes_of "</tr>") 0) with (-1).
  by rewrite html_scan_None.
Qed.
