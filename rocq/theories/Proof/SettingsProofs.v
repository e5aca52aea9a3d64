(** Proofs about Model/Settings.v. *)
From Coq Require Import String Ascii.
From stdpp Require Import strings.
From Verif.Model Require Import Settings.
Local Open Scope string_scope.
Local Open Scope list_scope.

Section proofs.
  Context {A : Type}.
  Implicit Types (body : list (statement A)) (c : config A) (ops : list (setting_op A)).

  Lemma set_all_out kvs : ∀ (d : string → option (slot A)) k, k ∉ kvs.*1 → set_all kvs d k = d k.
  Proof.
    induction kvs as [|[k' s] kvs IH]; intros d k Hk; [done|]. cbn in Hk. apply not_elem_of_cons in Hk as [H1 H2].
    unfold set_all. cbn [fold_left]. fold (set_all kvs (setattr d (k', s).1 (k', s).2)). rewrite IH by done. unfold setattr. cbn.
    by rewrite decide_False.
  Qed.
  Lemma set_all_in kvs : ∀ (d : string → option (slot A)) k s, NoDup kvs.*1 → (k, s) ∈ kvs → set_all kvs d k = Some s.
  Proof.
    induction kvs as [|[k' s'] kvs IH]; intros d k s Hnd Hin; [by apply elem_of_nil in Hin|].
    cbn in Hnd. apply list.NoDup_cons in Hnd as [Hk' Hnd].
    unfold set_all. cbn [fold_left]. fold (set_all kvs (setattr d (k', s').1 (k', s').2)).
    apply elem_of_cons in Hin as [Heq|Hin].
    - injection Heq as -> ->. rewrite set_all_out by done. unfold setattr. cbn. by rewrite decide_True.
    - by apply IH.
  Qed.

  Lemma class_dict_names body : (class_dict body).*1 = map st_name body.
  Proof.
    unfold class_dict. apply list_eq. intros i. rewrite list_lookup_fmap, list_lookup_imap.
    change (map st_name body) with (st_name <$> body). rewrite list_lookup_fmap. destruct (body !! i); done.
  Qed.
  Lemma class_dict_at body i st : body !! i = Some st → class_dict body !! i = Some (st_name st, slot_of i (st_value st)).
  Proof. intros H. unfold class_dict. rewrite list_lookup_imap, H. done. Qed.

  Lemma class_zip body : (zip (class_dict body) (map st_callable body)).*1 = class_dict body.
  Proof. apply fst_zip. unfold class_dict. rewrite imap_length, map_length. done. Qed.
  Lemma filter_NoDup {B C} (P : (string * B) * C → Prop) `{!∀ x, Decision (P x)} l : NoDup l.*1.*1 → NoDup (filter P l).*1.*1.
  Proof.
    induction l as [|x l IH]; intros Hnd; [constructor|]. cbn in Hnd. apply list.NoDup_cons in Hnd as [H1 H2].
    rewrite filter_cons. destruct (decide (P x)); [|by apply IH]. cbn. apply list.NoDup_cons. split; [|by apply IH].
    intros H3. apply H1. apply elem_of_list_fmap in H3 as (y & Hy & H3). apply elem_of_list_fmap in H3 as (z & Hz & H3).
    apply elem_of_list_filter in H3 as [_ H3]. subst y. rewrite Hy. apply elem_of_list_fmap_1, elem_of_list_fmap_1. done.
  Qed.
  Lemma defaults_NoDup body : NoDup (map st_name body) → NoDup (default_values body).*1.
  Proof. intros H. unfold default_values. apply filter_NoDup. rewrite class_zip, class_dict_names. done. Qed.
  Lemma defaults_in body i st : body !! i = Some st → String.prefix "__" (st_name st) = false →
    (st_name st, slot_of i (st_value st)) ∈ default_values body.
  Proof.
    intros H1 H2. unfold default_values. apply elem_of_list_fmap. exists ((st_name st, slot_of i (st_value st)), st_callable st).
    split; [done|]. apply elem_of_list_filter. cbn [fst snd]. split; [by rewrite H2|].
    apply (elem_of_list_lookup_2 _ i). apply lookup_zip_with_Some.
    exists (st_name st, slot_of i (st_value st)), (st_callable st). split_and!; [done|by apply class_dict_at|].
    change (map st_callable body) with (st_callable <$> body). rewrite list_lookup_fmap, H1. done.
  Qed.
  Lemma defaults_from body k s : (k, s) ∈ default_values body → ∃ i st, body !! i = Some st ∧ k = st_name st ∧ s = slot_of i (st_value st).
  Proof.
    intros H. assert ((k, s) ∈ class_dict body) as H'.
    { unfold default_values in H. apply elem_of_list_fmap in H as (y & Hy & H). apply elem_of_list_filter in H as [_ H].
      rewrite <- class_zip, Hy. by apply elem_of_list_fmap_1. }
    apply elem_of_list_lookup in H' as [i Hi].
    unfold class_dict in Hi. rewrite list_lookup_imap in Hi. destruct (body !! i) as [st|] eqn:E; [|done]. injection Hi as <- <-.
    by exists i, st.
  Qed.

  Lemma names_inj body i j st st' : NoDup (map st_name body) → body !! i = Some st → body !! j = Some st' → st_name st = st_name st' → i = j.
  Proof.
    intros Hnd H1 H2 He. eapply (NoDup_lookup (map st_name body)); [done| |].
    - change (map st_name body) with (st_name <$> body). rewrite list_lookup_fmap, H1. done.
    - change (map st_name body) with (st_name <$> body). rewrite list_lookup_fmap, H2. cbn. by rewrite He.
  Qed.

  (** what is true of setting [k], statement [i] with list [l], all the time *)
  Definition fine (body : list (statement A)) i k l there (c : config A) : Prop :=
    (i < length (heap c))%nat ∧ heap c !! i = Some l ∧ (∀ k', attrs c k' = Some (Ref i) ↔ k' = k ∧ there = true).

  Lemma reset_slot body i st c : NoDup (map st_name body) → body !! i = Some st → String.prefix "__" (st_name st) = false →
    attrs (reset body c) (st_name st) = Some (slot_of i (st_value st)).
  Proof. intros Hnd Hi Hp. unfold reset. cbn. apply set_all_in; [by apply defaults_NoDup|by apply defaults_in]. Qed.

  Lemma set_all_cases kvs (d : string → option (slot A)) k : NoDup kvs.*1 →
    (∃ s, (k, s) ∈ kvs ∧ set_all kvs d k = Some s) ∨ set_all kvs d k = d k.
  Proof.
    intros Hnd. destruct (decide (k ∈ kvs.*1)) as [H|H].
    - left. apply elem_of_list_fmap in H as ([k' s] & -> & H). exists s. split; [done|]. by apply set_all_in.
    - right. by apply set_all_out.
  Qed.

  Lemma fine_op body i st op l there c : NoDup (map st_name body) → body !! i = Some st → String.prefix "__" (st_name st) = false →
    (∃ l0, st_value st = Items l0) → fine body i (st_name st) l there c →
    fine body i (st_name st)
      (l ++ match op with Append k' x => if there && bool_decide (k' = st_name st) then [x] else [] | _ => [] end)
      (match op with Assign k' _ | Remove k' => there && negb (bool_decide (k' = st_name st)) | Append _ _ => there | Reset => true end)
      (do_op body c op).
  Proof.
    intros Hnd Hi Hp [l0 Hl0] (F1 & F2 & F3). destruct op as [k v|k|k x|]; cbn [do_op].
    - rewrite app_nil_r. unfold fine. cbn [heap attrs]. split_and!.
      + rewrite app_length. lia.
      + by rewrite lookup_app_l.
      + intros k'. unfold setattr. destruct (decide (k' = k)) as [->|Hk].
        * split.
          -- intros H. destruct v; cbn in H; [done|]. injection H as H. lia.
          -- intros [-> H]. rewrite bool_decide_true in H by done. destruct there; done.
        * rewrite F3. split; intros [-> H]; split; try done.
          -- rewrite H, bool_decide_false by done. done.
          -- destruct there; done.
    - rewrite app_nil_r. unfold fine. cbn [heap attrs]. split_and!; [done|done|].
      intros k'. destruct (decide (k' = k)) as [->|Hk].
      + split; [done|]. intros [-> H]. rewrite bool_decide_true in H by done. destruct there; done.
      + rewrite F3. split; intros [-> H]; split; try done.
        * rewrite H, bool_decide_false by done. done.
        * destruct there; done.
    - destruct (attrs c k) as [[a|j]|] eqn:E.
      + assert (there && bool_decide (k = st_name st) = false) as ->; [|by rewrite app_nil_r].
        destruct there; [|done]. apply bool_decide_eq_false. intros ->.
        assert (attrs c (st_name st) = Some (Ref i)) as E' by (apply F3; done). rewrite E in E'. done.
      + unfold fine. cbn [heap attrs]. destruct (decide (j = i)) as [->|Hj].
        * apply F3 in E as [-> ->]. rewrite bool_decide_true by done. cbn [andb]. split_and!.
          -- by rewrite alter_length.
          -- rewrite list_lookup_alter, F2. done.
          -- done.
        * assert (there && bool_decide (k = st_name st) = false) as ->.
          { destruct there; [|done]. apply bool_decide_eq_false. intros ->.
            assert (attrs c (st_name st) = Some (Ref i)) as E' by (apply F3; done). rewrite E in E'. injection E' as ->. done. }
          rewrite app_nil_r.
          split_and!; [by rewrite alter_length|by rewrite list_lookup_alter_ne|done].
      + assert (there && bool_decide (k = st_name st) = false) as ->; [|by rewrite app_nil_r].
        destruct there; [|done]. apply bool_decide_eq_false. intros ->.
        assert (attrs c (st_name st) = Some (Ref i)) as E' by (apply F3; done). rewrite E in E'. done.
    - rewrite app_nil_r. unfold fine. split_and!; [done|done|]. intros k'. split.
      + intros H. split; [|done]. unfold reset in H. cbn in H.
        destruct (set_all_cases (default_values body) (attrs c) k' (defaults_NoDup body Hnd)) as [(s & Hs & H')|H'].
        * rewrite H' in H. injection H as ->. apply defaults_from in Hs as (j & st' & Hj & -> & Hs).
          destruct (st_value st'); cbn in Hs; [done|]. injection Hs as <-. rewrite Hi in Hj. by injection Hj as <-.
        * rewrite H' in H. apply F3 in H as [-> _]. done.
      + intros [-> _]. rewrite (reset_slot _ i) by done. rewrite Hl0. done.
  Qed.

  Lemma fine_run body i st : NoDup (map st_name body) → body !! i = Some st → String.prefix "__" (st_name st) = false →
    (∃ l0, st_value st = Items l0) → ∀ ops l there c, fine body i (st_name st) l there c →
    ∃ there', fine body i (st_name st) (l ++ appended (st_name st) there ops) there' (fold_left (do_op body) ops c).
  Proof.
    intros Hnd Hi Hp Hl. induction ops as [|op ops IH]; intros l there c F; cbn [fold_left].
    - exists there. cbn. by rewrite app_nil_r.
    - pose proof (fine_op body i st op l there c Hnd Hi Hp Hl F) as F'. apply IH in F' as [there' F']. exists there'.
      rewrite <- app_assoc in F'. destruct op; exact F'.
  Qed.

  Lemma fine_start body i st l : NoDup (map st_name body) → body !! i = Some st → st_value st = Items l → fine body i (st_name st) l true (define body).
  Proof.
    intros Hnd Hi Hl. unfold fine, define. cbn [heap attrs].
    assert ((class_dict body).*1 = map st_name body) as Hn by apply class_dict_names. split_and!.
    - rewrite map_length. by eapply lookup_lt_Some.
    - change (map (λ st, object_of (st_value st)) body) with ((λ st, object_of (st_value st)) <$> body).
      rewrite list_lookup_fmap, Hi. cbn. by rewrite Hl.
    - intros k'. split.
      + intros H. split; [|done]. destruct (set_all_cases (class_dict body) (λ _, None) k') as [(s & Hs & H')|H']; [by rewrite Hn| |].
        * rewrite H' in H. injection H as ->. apply elem_of_list_lookup in Hs as [j Hj]. unfold class_dict in Hj.
          rewrite list_lookup_imap in Hj. destruct (body !! j) as [st'|] eqn:E; [|done]. injection Hj as <- Hs.
          destruct (st_value st'); cbn in Hs; [done|]. injection Hs as ->. rewrite Hi in E. by injection E as <-.
        * rewrite H' in H. done.
      + intros [-> _]. apply set_all_in; [by rewrite Hn|]. apply (elem_of_list_lookup_2 _ i). rewrite (class_dict_at _ _ st) by done.
        by rewrite Hl.
  Qed.

  Lemma reset_items body ops i st l : NoDup (map st_name body) → body !! i = Some st → String.prefix "__" (st_name st) = false →
    st_value st = Items l → getattr (reset body (run body ops)) (st_name st) = Ok (Items (l ++ appended (st_name st) true ops)).
  Proof.
    intros Hnd Hi Hp Hl. unfold getattr. rewrite (reset_slot _ i) by done. rewrite Hl. cbn [slot_of].
    destruct (fine_run body i st Hnd Hi Hp (ex_intro _ l Hl) ops l true (define body)) as (there' & _ & F & _); [by apply fine_start|].
    unfold run, reset. cbn [heap]. rewrite F. done.
  Qed.
  Lemma reset_one body ops i st a : NoDup (map st_name body) → body !! i = Some st → String.prefix "__" (st_name st) = false →
    st_value st = One a → getattr (reset body (run body ops)) (st_name st) = Ok (One a).
  Proof. intros Hnd Hi Hp Hl. unfold getattr. rewrite (reset_slot _ i) by done. rewrite Hl. done. Qed.

  Lemma appended_none k ops : (∀ x, Append k x ∉ ops) → ∀ there, appended (A := A) k there ops = [].
  Proof.
    induction ops as [|op ops IH]; intros H there; [done|].
    assert (∀ x, Append k x ∉ ops) as H' by (intros x Hx; apply (H x); by apply elem_of_list_further).
    destruct op as [k' v|k'|k' x|]; cbn; try by apply IH.
    rewrite IH by done. destruct (decide (k' = k)) as [->|Hk]; [exfalso; apply (H x); by left|].
    rewrite bool_decide_false by done. by destruct there.
  Qed.
  Lemma reset_restores body ops i st : NoDup (map st_name body) → body !! i = Some st → String.prefix "__" (st_name st) = false →
    (∀ x, Append (st_name st) x ∉ ops) → getattr (reset body (run body ops)) (st_name st) = Ok (st_value st).
  Proof.
    intros Hnd Hi Hp Ha. destruct (st_value st) as [a|l] eqn:E.
    - by apply (reset_one body ops i).
    - rewrite (reset_items body ops i st l) by done. rewrite appended_none by done. by rewrite app_nil_r.
  Qed.

  Lemma reset_others body c k : (∀ st, st ∈ body → st_name st ≠ k) → getattr (reset body c) k = getattr c k.
  Proof.
    intros H. unfold getattr, reset. cbn [attrs heap]. rewrite set_all_out; [done|].
    intros Hk. apply elem_of_list_fmap in Hk as ([k' s] & -> & Hk). apply defaults_from in Hk as (i & st & Hi & -> & _).
    apply (H st); [|done]. by eapply elem_of_list_lookup_2.
  Qed.
End proofs.

(** ** Flags of the environment *)
Lemma lower_small a b : lower_char a = b ↔ small_of a b.
Proof.
  unfold lower_char, small_of. destruct ((65 <=? nat_of_ascii a)%nat && (nat_of_ascii a <=? 90)%nat) eqn:E.
  - apply andb_true_iff in E as [E1 E2]. apply Nat.leb_le in E1, E2. split.
    + intros <-. right. split; [lia|]. apply nat_ascii_embedding. lia.
    + intros [[_ H]|[_ H]]; [lia|]. rewrite <- H. apply ascii_nat_embedding.
  - apply andb_false_iff in E. rewrite !Nat.leb_gt in E. split.
    + intros <-. left. split; [done|lia].
    + intros [[-> _]|[H _]]; [done|lia].
Qed.
Lemma lower_all s : ∀ t, lower s = t ↔ Forall2 small_of (list_ascii_of_string s) (list_ascii_of_string t).
Proof.
  induction s as [|c s IH]; intros [|c' t]; cbn; split; intros H; try done; try by inversion H.
  - injection H as H1 H2. constructor; [by apply lower_small|by apply IH].
  - inversion H; subst. f_equal; [by apply lower_small|by apply IH].
Qed.
Lemma flag_yes environ name dflt : env_flag environ name dflt = true ↔ means_yes (default dflt (environ name)).
Proof.
  unfold env_flag, means_yes. rewrite bool_decide_eq_true. split.
  - intros H. exists (lower (default dflt (environ name))). split; [exact H|]. by apply lower_all.
  - intros (y & Hy & H). apply lower_all in H. rewrite H. exact Hy.
Qed.

Lemma config_names environ workdir pid vpus : NoDup (map st_name (config_body environ workdir pid vpus)).
Proof. cbn [config_body map st_name]. apply (bool_decide_unpack _). vm_compute. exact I. Qed.
Lemma config_reset environ workdir pid vpus ops i st : config_body environ workdir pid vpus !! i = Some st →
  String.prefix "__" (st_name st) = false → st_name st ≠ "NIM_SUPPORTED_CONV_TYPES" →
  getattr (reset (config_body environ workdir pid vpus) (run (config_body environ workdir pid vpus) ops)) (st_name st) = Ok (st_value st).
Proof.
  intros Hi Hp Hn. destruct (st_value st) as [a|l] eqn:E.
  - apply (reset_one _ ops i); [apply config_names|done|done|done].
  - exfalso. do 19 (destruct i as [|i]; [injection Hi as <-; first [discriminate E|by apply Hn]|]). discriminate Hi.
Qed.
