(** Proofs for Props/TypedDict.v. *)
From stdpp Require Import strings.
From Coq Require Import Qcanon.
From Verif.Model Require Import TypedDict.
From Verif.Proof Require Import DictLemmas.
Local Open Scope Z_scope.

(** a type and a class have one value *)
Lemma pair_same v w : raw_eqb (Pair (type_of_value v) v) (Pair (type_of_value w) w) = bool_decide (v = w).
Proof.
  cbn [raw_eqb]. destruct (decide (v = w)) as [->|Hne].
  - by rewrite !bool_decide_eq_true_2 by done.
  - rewrite (bool_decide_eq_false_2 (v = w)) by done. apply andb_false_iff.
    destruct (decide (type_of_value v = type_of_value w)) as [Ht|Ht]; [|left; by apply bool_decide_eq_false_2]. right.
    apply bool_decide_eq_false_2. intros Hc. apply Hne.
    destruct v as [|b|z|q|s|s|us|d|us|us], w as [|b'|z'|q'|s'|s'|us'|d'|us'|us']; try discriminate Ht; try exact Hc; try done.
    + destruct b, b'; try done; cbn in Hc; discriminate Hc.
    + unfold eq_class in Hc. cbn [number] in Hc. f_equal. apply (f_equal (λ x, match x with VFloat q => q | _ => 0%Qc end)) in Hc. exact (proj1 (Z2Qc_inj_iff _ _) Hc).
Qed.

Definition hashed {V} (d : list (pyval * V)) : list (raw_key * V) := map (λ p, (Pair (type_of_value p.1) p.1, p.2)) d.

Section hash.
  Context {V : Type}.
  Implicit Types (d : list (pyval * V)) (ops : list (dict_op V)).

  Lemma hash_meant k : get_hash k = Pair (type_of_value (meant k)) (meant k).
  Proof. by destruct k. Qed.

  Lemma raw_get_hashed d v : raw_get (hashed d) (Pair (type_of_value v) v) = dget d v.
  Proof.
    induction d as [|[w x] d IH]; [done|]. cbn [hashed map raw_get dget fst snd].
    rewrite pair_same. destruct (decide (v = w)) as [->|Hne].
    - by rewrite bool_decide_eq_true_2.
    - by rewrite bool_decide_eq_false_2.
  Qed.
  Lemma raw_set_hashed d v x : raw_set (hashed d) (Pair (type_of_value v) v) x = hashed (dset d v x).
  Proof.
    induction d as [|[w y] d IH]; [done|]. cbn [hashed map raw_set dset fst snd].
    rewrite pair_same. destruct (decide (v = w)) as [->|Hne].
    - by rewrite bool_decide_eq_true_2.
    - rewrite bool_decide_eq_false_2 by done. cbn [map fst snd]. f_equal. exact IH.
  Qed.
  Lemma raw_del_hashed d v : NoDup d.*1 → raw_del (hashed d) (Pair (type_of_value v) v) = hashed (ddel d v).
  Proof.
    induction d as [|[w y] d IH]; intros Hnd; [done|]. cbn in Hnd. apply list.NoDup_cons in Hnd as [Hw Hnd].
    cbn [hashed map raw_del fst snd]. rewrite pair_same. unfold ddel. rewrite filter_cons. cbn [fst].
    destruct (decide (v = w)) as [->|Hne].
    - rewrite bool_decide_eq_true_2 by done. rewrite decide_False by naive_solver. f_equal.
      symmetry. clear IH Hnd. induction d as [|[u z] d IH]; [done|]. cbn in Hw. apply not_elem_of_cons in Hw as [Hu Hw].
      rewrite filter_cons_True by (cbn; congruence). by rewrite IH.
    - rewrite bool_decide_eq_false_2 by done. rewrite decide_True by congruence. unfold hashed. cbn [map fst snd]. f_equal. by apply IH.
  Qed.

  Lemma ddel_absent d v : dget d v = None → ddel d v = d.
  Proof.
    intros Hv%dget_None. induction d as [|[w y] d IH]; [done|]. cbn in Hv. apply not_elem_of_cons in Hv as [Hw Hv].
    unfold ddel. rewrite filter_cons_True by (cbn; congruence). f_equal. by apply IH.
  Qed.

  Lemma ddel_keys d v : (ddel d v).*1 = filter (λ w, w ≠ v) d.*1.
  Proof.
    unfold ddel. induction d as [|[w y] d IH]; [done|]. rewrite filter_cons.
    change (((w, y) :: d).*1) with (w :: d.*1). rewrite filter_cons. cbn [fst].
    destruct (decide (w ≠ v)); [|exact IH]. rewrite fmap_cons. f_equal. exact IH.
  Qed.

  (** the plain dictionary that a run stands for *)
  Definition pdo d (op : dict_op V) : list (pyval * V) :=
    match op with OpSet k x => dset d (meant k) x | OpDel k => ddel d (meant k) end.

  Lemma do_hashed d op : NoDup d.*1 → hd_do (hashed d) op = hashed (pdo d op) ∧ NoDup (pdo d op).*1.
  Proof.
    intros Hnd. destruct op as [k x|k]; cbn [hd_do pdo].
    - unfold hd_setitem. rewrite hash_meant, raw_set_hashed. split; [done|by apply dset_NoDup].
    - unfold hd_delitem. rewrite hash_meant, raw_get_hashed, raw_del_hashed by done. split; [|by apply ddel_NoDup].
      destruct (dget d (meant k)) eqn:Hg; [done|]. by rewrite ddel_absent.
  Qed.

  Lemma run_hashed ops : ∃ d, hd_run ops = hashed d ∧ NoDup d.*1 ∧
    (∀ v, dget d v = last_stored v ops) ∧ d.*1 = keys_stored ops.
  Proof.
    unfold hd_run, last_stored, keys_stored. induction ops as [|op ops IH] using rev_ind.
    - exists []. split_and!; try done. constructor.
    - destruct IH as (d & Hd & Hnd & Hget & Hkeys). exists (pdo d op). rewrite !fold_left_app, Hd. cbn [fold_left].
      destruct (do_hashed d op Hnd) as [H1 H2]. split_and!; [done|done| |].
      + intros v. rewrite fold_left_app. cbn [fold_left]. destruct op as [k x|k]; cbn [pdo].
        * rewrite dget_dset, Hget. repeat case_decide; congruence.
        * rewrite dget_ddel, Hget. repeat case_decide; congruence.
      + destruct op as [k x|k]; cbn [pdo].
        * rewrite dset_keys, Hkeys. done.
        * rewrite <- Hkeys. apply ddel_keys.
  Qed.

  Theorem stored_get ops k : hd_getitem (hd_run ops) k = match last_stored (meant k) ops with Some x => Ok x | None => Err KeyError end.
  Proof.
    destruct (run_hashed ops) as (d & Hd & _ & Hget & _). unfold hd_getitem. by rewrite Hd, hash_meant, raw_get_hashed, Hget.
  Qed.
  Theorem stored_contains ops k : hd_contains (hd_run ops) k = true ↔ is_Some (last_stored (meant k) ops).
  Proof.
    destruct (run_hashed ops) as (d & Hd & _ & Hget & _). unfold hd_contains. rewrite Hd, hash_meant, raw_get_hashed, Hget.
    destruct (last_stored (meant k) ops); split; try done. by intros [? [=]].
  Qed.
  Theorem stored_del ops k : last_stored (meant k) ops = None → hd_delitem (hd_run ops) k = Err KeyError.
  Proof.
    intros H. destruct (run_hashed ops) as (d & Hd & _ & Hget & _). unfold hd_delitem.
    by rewrite Hd, hash_meant, raw_get_hashed, Hget, H.
  Qed.

  Lemma seconds_hashed d : seconds (hashed d).*1 = Ok d.*1.
  Proof.
    induction d as [|[w y] d IH]; [done|].
    change (seconds (hashed ((w, y) :: d)).*1) with (res_map (cons w) (seconds (hashed d).*1)). by rewrite IH.
  Qed.
  Theorem stored_keys ops : hd_keys (hd_run ops) = Ok (keys_stored ops).
  Proof. destruct (run_hashed ops) as (d & Hd & _ & _ & Hk). unfold hd_keys. by rewrite Hd, seconds_hashed, Hk. Qed.
  Theorem stored_items ops : ∃ items, hd_items (hd_run ops) = Ok items ∧ items.*1 = keys_stored ops ∧
    ∀ v x, (v, x) ∈ items ↔ last_stored v ops = Some x.
  Proof.
    destruct (run_hashed ops) as (d & Hd & Hnd & Hget & Hk). exists d. unfold hd_items. rewrite Hd, seconds_hashed. split_and!.
    - cbn. f_equal. clear. induction d as [|[w y] d IH]; [done|]. cbn in *. by f_equal.
    - done.
    - intros v x. rewrite <- Hget. symmetry. by apply dget_Some.
  Qed.

  (** the inherited [get] never finds anything *)
  Theorem stored_get_method ops k (dflt : V) : hd_get (hd_run ops) k dflt = dflt.
  Proof.
    destruct (run_hashed ops) as (d & Hd & _). unfold hd_get. rewrite Hd. clear. induction d as [|[w y] d IH]; [done|]. exact IH.
  Qed.

  (** nor does anything find what the inherited [update] stores *)
  Theorem updated_get ops k (x : V) j : hd_getitem (hd_update (hd_run ops) k x) j = hd_getitem (hd_run ops) j.
  Proof.
    destruct (run_hashed ops) as (d & Hd & _). unfold hd_getitem, hd_update. rewrite Hd, hash_meant. f_equal.
    assert (raw_get (raw_set (hashed d) (Single (meant k)) x) (Pair (type_of_value (meant j)) (meant j)) =
            raw_get (hashed d) (Pair (type_of_value (meant j)) (meant j))) as ->; [|done].
    clear. induction d as [|[w y] d IH]; [done|]. cbn [hashed map raw_set raw_get fst snd].
    change (raw_eqb (Single (meant k)) _) with false. cbn iota. cbn [raw_get]. destruct (raw_eqb _ _); [done|]. exact IH.
  Qed.

  Lemma second_single v : second (Single v) = second_item v.
  Proof. destruct v; try done; destruct s as [|a [|b [|c s]]]; done. Qed.
  Lemma seconds_app ks k : seconds (ks ++ [k]) = res_bind (seconds ks) (λ l, res_map (λ v, l ++ [v]) (second k)).
  Proof.
    induction ks as [|k' ks IH]; [cbn; by destruct (second k)|]. cbn [seconds app]. rewrite IH.
    destruct (second k'); cbn; [|done]. destruct (seconds ks); cbn; [|done]. by destruct (second k).
  Qed.
  Theorem updated_keys ops k (x : V) : hd_keys (hd_update (hd_run ops) k x) =
    res_map (λ v, keys_stored ops ++ [v]) (second_item (meant k)).
  Proof.
    pose proof (stored_keys ops) as Hk. destruct (run_hashed ops) as (d & Hd & _). unfold hd_keys, hd_update in *. rewrite Hd in *.
    assert (∀ d : list (pyval * V), raw_set (hashed d) (Single (meant k)) x = hashed d ++ [(Single (meant k), x)]) as E.
    { clear. induction d as [|[w y] d IH]; [done|]. cbn [hashed map raw_set fst snd].
      change (raw_eqb (Single (meant k)) _) with false. cbn iota. cbn [app]. f_equal. exact IH. }
    rewrite E, fmap_app. cbn [fmap list_fmap fst]. rewrite seconds_app, Hk. cbn [res_bind]. by rewrite second_single.
  Qed.
End hash.

Lemma rank_dict_hashed L : rank_dict L = hashed (enum_dict id L).
Proof.
  unfold rank_dict, enum_dict. change [] with (hashed (V := Z) []) at 1. generalize (@nil (pyval * Z)).
  induction (zip (seqZ 0 (zlen L)) L) as [|p l IH]; intros d; [done|]. cbn [fold_left].
  unfold hd_setitem. rewrite hash_meant, raw_set_hashed. apply IH.
Qed.
Theorem ranks_found L v : hd_getitem (rank_dict L) v =
  match dget (enum_dict id L) (meant v) with Some x => Ok x | None => Err KeyError end.
Proof. unfold hd_getitem. by rewrite rank_dict_hashed, hash_meant, raw_get_hashed. Qed.

Theorem types_known o : pytype o = type_of_value (numpy_to_python o) ∧ numpy_to_python o = meant o.
Proof. by destruct o. Qed.

Theorem type_names o : type_text (pytype o) = type_name (meant o).
Proof. destruct o as [v|v]; by destruct v. Qed.
