(** Proofs of C93: the temporary files of [excel_reader]. *)
From Verif.Proof Require Import SmallProofs NpyProofs JsonTableProofs.
From Verif.Spec Require Import SheetCells.
From Verif.Model Require Import SheetReader.
Local Open Scope list_scope.
Local Open Scope Z_scope.

Lemma strip_escape_cleaned {O} (v : xcell O) : strip_escape v = cleaned v.
Proof.
  destruct v as [| | | |s| |]; try done. cbn [strip_escape cleaned fold_left]. f_equal. unfold on_one_line.
  rewrite !list_filter_filter. apply list_filter_iff. intros c.
  rewrite !elem_of_cons, elem_of_nil. tauto.
Qed.

Section pack.
  Context {O : Type} `{EqDecision O} (dumps : O → list Z) (loads : list Z → O).
  Local Notation size := (λ o, zlen (dumps o)).

  Lemma scalar_test s :
    forallb (λ c, (0 <=? c) && (c <? 0x110000) && negb ((0xD800 <=? c) && (c <=? 0xDFFF))) s = true ↔ Forall scalar s.
  Proof.
    rewrite forallb_forall, list.Forall_forall. unfold scalar, code_point. setoid_rewrite elem_of_list_In.
    apply forall_proper. intros c. apply forall_proper. intros _.
    rewrite !andb_true_iff, negb_true_iff, andb_false_iff, Z.leb_le, Z.ltb_lt, !Z.leb_gt. lia.
  Qed.

  Lemma pack_ok (v : xcell O) : storable size v → ∃ b, pack dumps v = Ok b.
  Proof.
    unfold pack. destruct v as [|b|z|f|s|o|]; cbn [storable pack_value]; intros H; try done.
    - by eexists.
    - by eexists.
    - rewrite (proj2 (Z.leb_le _ _)), (proj2 (Z.ltb_lt _ _)) by lia. cbn [andb res_bind snd fst].
      rewrite le_length. by eexists.
    - cbn [res_bind snd fst]. rewrite le_length. by eexists.
    - destruct H as [H1 H2]. apply scalar_test in H1 as ->. cbn [res_bind snd fst]. rewrite (proj2 (Z.ltb_lt _ _)) by done. by eexists.
    - cbn [res_bind snd fst]. rewrite (proj2 (Z.ltb_lt _ _)) by done. by eexists.
  Qed.

  (** only these *)
  Lemma pack_storable (v : xcell O) b : pack dumps v = Ok b → (∀ f, v = XFloat f → 0 <= f < 2 ^ 64) → storable size v.
  Proof.
    unfold pack. intros H Hf. destruct v as [|b'|z|f|s|o|]; cbn [storable]; cbn [pack_value res_bind] in H; try done.
    - destruct (Z.leb_spec (- 2 ^ 63) z); [|done]. destruct (Z.ltb_spec z (2 ^ 63)); [done|done].
    - by apply Hf.
    - destruct (forallb _ s) eqn:E; cbn [res_bind snd] in H; [|done]. apply scalar_test in E.
      destruct (Z.ltb_spec (zlen (utf8 s)) (2 ^ 32)); done.
    - cbn [snd] in H. destruct (Z.ltb_spec (zlen (dumps o)) (2 ^ 32)); done.
  Qed.

  Lemma unpack_value_pack (v : xcell O) p : (∀ o, loads (dumps o) = o) → storable size v →
    pack_value dumps v = Ok p → unpack_value loads p.1 p.2 = Ok v ∧ zlen p.2 < 2 ^ 32.
  Proof.
    intros Hl Hs Hp. destruct v as [|b|z|f|s|o|]; cbn [storable pack_value] in *; try done.
    - by injection Hp as <-.
    - injection Hp as <-. by destruct b.
    - destruct ((- 2 ^ 63 <=? z) && (z <? 2 ^ 63)) eqn:E; [|done]. assert (p = (113, le_bytes 8 z)) as -> by congruence. clear Hp. cbn [fst snd]. unfold unpack_value.
      rewrite le_length. split; [|done]. change (113 =? 113) with true. change ((8 =? 8)%nat) with true. cbv iota. do 2 f_equal.
      rewrite le_value_mod. change (256 ^ Z.of_nat 8) with (2 ^ (8 * Z.of_nat 8)). apply signed_mod; [lia|].
      change (8 * Z.of_nat 8 - 1) with 63. done.
    - assert (p = (100, le_bytes 8 f)) as -> by congruence. clear Hp. cbn [fst snd]. unfold unpack_value. rewrite le_length. split; [|done].
      change (100 =? 113) with false. change (100 =? 100) with true. change ((8 =? 8)%nat) with true. cbv iota. do 2 f_equal.
      rewrite le_value_mod. change (256 ^ Z.of_nat 8) with (2 ^ 64). by apply Z.mod_small.
    - destruct (forallb _ s); [|done]. injection Hp as <-. destruct Hs as [H1 H2]. split; [|done].
      cbn [fst snd]. unfold unpack_value. change (115 =? 113) with false. change (115 =? 100) with false. change (115 =? 115) with true. cbv iota.
      rewrite toRunes_utf8; [done|]. eapply list.Forall_impl; [exact H1|]. by intros c [].
    - injection Hp as <-. split; [|done]. cbn [fst snd]. unfold unpack_value. cbn. by rewrite Hl.
  Qed.

  Lemma unpack_cons (v : xcell O) b rest fuel : (∀ o, loads (dumps o) = o) → storable size v → pack dumps v = Ok b →
    unpack loads (S fuel) (b ++ rest) = res_map (cons v) (unpack loads fuel rest) ∧ (0 < length b)%nat.
  Proof.
    intros Hl Hs. unfold pack. destruct (pack_value dumps v) as [p|e] eqn:Ep; cbn [res_bind]; [|done].
    destruct (unpack_value_pack v p Hl Hs Ep) as [Hu Hz]. rewrite (proj2 (Z.ltb_lt _ _)) by done. intros Eb.
    assert (b = p.1 :: le_bytes 4 (zlen p.2) ++ p.2) as -> by congruence. clear Eb. split; [|cbn [length]; lia]. cbn [app unpack]. rewrite <- app_assoc.
    rewrite take_app_alt, drop_app_alt by (by rewrite le_length). rewrite le_length. change ((4 =? 4)%nat) with true. cbv iota.
    rewrite le_value_mod. change (256 ^ Z.of_nat 4) with (2 ^ 32). rewrite Z.mod_small by lia. rewrite Nat2Z.id.
    rewrite take_app, drop_app. rewrite Hu. done.
  Qed.

  Lemma unpack_packed (vs : list (xcell O)) bs : (∀ o, loads (dumps o) = o) → Forall (storable size) vs →
    Forall2 (λ v b, pack dumps v = Ok b) vs bs → ∀ fuel, (length (concat bs) <= fuel)%nat → unpack loads fuel (concat bs) = Ok vs.
  Proof.
    intros Hl Hs Hb. induction Hb as [|v b vs bs Hv _ IH]; intros fuel Hf; [by destruct fuel|].
    apply list.Forall_cons in Hs as [Hs1 Hs2]. cbn [concat] in *. rewrite app_length in Hf.
    destruct (unpack_cons v b (concat bs) (pred fuel) Hl Hs1 Hv) as [Hu Hlen].
    replace fuel with (S (pred fuel)) by lia. rewrite Hu, IH; [done|done|lia].
  Qed.
End pack.
