(** Proofs about what is asked for in a column selection (C112). *)
From Coq Require Import Ascii String.
From Verif.Spec Require Import Base TaskSettings SelectRequests.
From Verif.Model Require Import Dict ColumnSelect EncFile SelectRequests.
From Verif.Proof Require Import DictLemmas SelectFinal.
Local Open Scope string_scope.
Local Open Scope list_scope.

(** ** Names of types *)

Lemma lower_letter a b : (97 ≤ N_of_ascii b ∧ N_of_ascii b ≤ 122)%N → ascii_lower a = b ↔ letter_case b a.
Proof.
  intros Hb. unfold letter_case, ascii_lower. cbv zeta. split.
  - destruct ((65 <=? N_of_ascii a)%N && (N_of_ascii a <=? 90)%N) eqn:E; [|intros ->; by left].
    apply andb_prop in E as [E1 E2]. apply N.leb_le in E1, E2. intros <-. right.
    rewrite N_ascii_embedding by lia. lia.
  - intros [->|(H1&H2&H3)].
    + destruct ((65 <=? N_of_ascii a)%N && (N_of_ascii a <=? 90)%N) eqn:E; [|done].
      apply andb_prop in E as [E1 E2]. apply N.leb_le in E1, E2. lia.
    + replace ((65 <=? N_of_ascii a)%N && (N_of_ascii a <=? 90)%N) with true
        by (symmetry; apply andb_true_intro; split; apply N.leb_le; lia).
      rewrite <-H3. by rewrite ascii_N_embedding.
Qed.

Fixpoint small_chars (s : string) : Prop :=
  match s with
  | EmptyString => True
  | String b s => (97 ≤ N_of_ascii b ∧ N_of_ascii b ≤ 122)%N ∧ small_chars s
  end.

Lemma spelled_lower name s : small_chars name → string_map ascii_lower s = name ↔ spelled name s.
Proof.
  revert s. induction name as [|b name IH]; intros [|a s] Hn; cbn; try done.
  destruct Hn as [Hb Hn]. rewrite <-(IH s Hn), <-(lower_letter a b Hb). split.
  - intros [= -> ->]. done.
  - intros [-> ->]. done.
Qed.

Lemma small_names : Forall (λ e, small_chars e.1) type_names.
Proof.
  repeat (constructor; [cbn [fst small_chars];
    repeat match goal with |- context [N_of_ascii ?a] =>
      let n := eval vm_compute in (N_of_ascii a) in change (N_of_ascii a) with n end;
    repeat (split; [lia|]); exact I|]). constructor.
Qed.

Lemma toPageType_ok s k : toPageType s = Ok k ↔ ∃ name, (name, k) ∈ type_names ∧ spelled name s.
Proof.
  split.
  - intros H. exists (string_map ascii_lower s).
    assert (Hin : (string_map ascii_lower s, k) ∈ type_names).
    { revert H. unfold toPageType. cbv zeta. unfold type_names.
      repeat (destruct (decide _) as [->|_]; [intros [= <-]; set_solver|]). done. }
    split; [done|]. apply spelled_lower; [|done].
    pose proof small_names as Hs. rewrite list.Forall_forall in Hs. exact (Hs _ Hin).
  - intros (name & Hin & Hs). apply spelled_lower in Hs.
    + unfold toPageType. cbv zeta. rewrite Hs. unfold type_names in Hin.
      repeat (apply elem_of_cons in Hin as [[= -> ->]|Hin]; [by vm_compute|]). by apply elem_of_nil in Hin.
    + pose proof small_names as Hsm. rewrite list.Forall_forall in Hsm. exact (Hsm _ Hin).
Qed.

Lemma toPageType_err s : (∀ name k, (name, k) ∈ type_names → ¬ spelled name s) → toPageType s = Err OtherError.
Proof.
  intros H. destruct (toPageType s) as [k|e] eqn:E.
  - apply toPageType_ok in E as (name & Hin & Hs). by destruct (H _ _ Hin).
  - revert E. unfold toPageType. cbv zeta. repeat (destruct (decide _); [done|]). by intros [= <-].
Qed.

Lemma user_names k : k ≠ K_NONETYPE → toPageType (getTypeUserName k) = Ok k.
Proof. destruct k; intros H; [done|vm_compute; reflexivity..]. Qed.

Lemma kind_there k : str2ObjKind (kind_text k) = Ok k.
Proof. by destruct k; vm_compute. Qed.

(** ** To Python and back *)

Lemma dset_fresh {K V} `{EqDecision K} (d : list (K * V)) k v : k ∉ d.*1 → dset d k v = d ++ [(k, v)].
Proof.
  induction d as [|[k' v'] d IH]; [done|]. rewrite fmap_cons. intros [H1 H2]%not_elem_of_cons. cbn [dset].
  rewrite decide_False by done. by rewrite IH.
Qed.

Section requests.
  Context (strip : string → string) (truth : jvalue → res bool).
  Notation request := (request (K := knd8)).
  Notation desired := (desired (K := knd8)).
  Notation dict := (list (string * jvalue)).

  Definition row (d : desired) : string * string * bool := (d_orig d, kind_text (d_type d), d_allow d).

  Lemma to_py_fold (m : list (string * desired)) acc : NoDup (acc.*1 ++ m.*1) →
    fold_left (λ d e, dset d e.1 (d_orig e.2, kind_text (d_type e.2), d_allow e.2)) m acc =
    acc ++ map (λ e, (e.1, row e.2)) m.
  Proof.
    revert acc. induction m as [|[k d] m IH]; intros acc H; cbn [fold_left map]; [by rewrite app_nil_r|].
    cbn [fst snd]. rewrite dset_fresh.
    - rewrite IH.
      + by rewrite <-app_assoc.
      + rewrite fmap_app. cbn. by rewrite <-app_assoc.
    - rewrite fmap_cons in H. apply list.NoDup_app in H as (_ & H & _). intros Hin. apply (H _ Hin). left.
  Qed.

  Lemma from_py_loop (all m acc : list (string * desired)) :
    NoDup all.*1 → (∀ e, e ∈ m → e ∈ all ∧ d_name e.2 = e.1) → NoDup (acc.*1 ++ m.*1) →
    fromPyObj_loop (map (λ e, (e.1, row e.2)) all) (map (λ e, (e.1, row e.2)) m) acc = Ok (acc ++ m).
  Proof.
    intros Hall. revert acc. induction m as [|[k d] m IH]; intros acc Hm H; cbn [map fromPyObj_loop]; [by rewrite app_nil_r|].
    destruct (Hm (k, d)) as [Hin Hn]; [left|]. cbn [fst snd] in Hn |- *.
    assert (Hget : dget (map (λ e : string * desired, (e.1, row e.2)) all) k = Some (row d)).
    { apply dget_Some.
      - rewrite <-list_fmap_compose. exact Hall.
      - apply elem_of_list_fmap. by exists (k, d). }
    rewrite Hget. unfold row at 1. rewrite kind_there. cbn [res_bind].
    rewrite dset_fresh.
    - rewrite IH.
      + rewrite <-app_assoc. cbn [app]. destruct d as [n o t a]. cbn in *. by subst n.
      + intros e He. apply Hm. by right.
      + rewrite fmap_app, <-app_assoc. done.
    - rewrite fmap_cons in H. apply list.NoDup_app in H as (_ & H & _). intros Hin'. apply (H _ Hin'). left.
  Qed.

  Lemma there_and_back (m : list (string * desired)) : NoDup m.*1 → (∀ e, e ∈ m → d_name e.2 = e.1) →
    fromPyObjToDesiredInfos (infos_toPyObj m) = Ok m.
  Proof.
    intros H Hn. unfold fromPyObjToDesiredInfos, infos_toPyObj. rewrite to_py_fold by done. cbn [app].
    rewrite from_py_loop; [done|done| |done]. intros e He. split; [done|]. by apply Hn.
  Qed.

  Lemma dset_elem (d : list (string * desired)) k v e : e ∈ dset d k v → e = (k, v) ∨ e ∈ d.
  Proof.
    induction d as [|[k' v'] d IH]; cbn [dset].
    - rewrite elem_of_list_singleton. by left.
    - destruct (decide (k = k')) as [->|].
      + rewrite elem_of_cons. intros [->|]; [by left|]. right. by right.
      + rewrite elem_of_cons. intros [->|H]; [right; left|]. destruct (IH H); [by left|]. right. by right.
  Qed.

  Definition named (m : list (string * desired)) := NoDup m.*1 ∧ ∀ e, e ∈ m → d_name e.2 = e.1.

  Lemma add_named s (r : request) : named s.1 → named (add_desired K_NONETYPE s r).1.
  Proof.
    intros [H1 H2]. unfold add_desired. destruct (dget s.2 _); cbn [fst snd].
    all: split; [by apply dset_NoDup|].
    all: intros e [->|He]%dset_elem; [done|by apply H2].
  Qed.

  Lemma read_entries_ok cols s m : read_entries strip truth cols s = Ok m ↔
    ∃ rs, Forall2 (λ c r, read_entry strip truth c = Ok r) cols rs ∧ m = (fold_left (add_desired K_NONETYPE) rs s).1.
  Proof.
    revert s. induction cols as [|c cols IH]; intros s; cbn [read_entries].
    - split.
      + intros [= <-]. exists []. done.
      + intros (rs & H & ->). apply Forall2_nil_inv_l in H as ->. done.
    - split.
      + destruct (read_entry strip truth c) as [r|] eqn:E; [|done]. cbn [res_bind]. intros (rs & H & ->)%IH.
        exists (r :: rs). split; [by constructor|done].
      + intros (rs & H & ->). apply Forall2_cons_inv_l in H as (r & rs' & Hr & Hrs & ->). rewrite Hr. cbn [res_bind].
        apply IH. by exists rs'.
  Qed.

  Lemma fold_named rs s : named s.1 → named (fold_left (add_desired K_NONETYPE) rs s).1.
  Proof. revert s. induction rs as [|r rs IH]; intros s H; cbn; [done|]. apply IH. by apply add_named. Qed.

  Lemma task_gets cols : task_infos strip truth cols = desiredColumnMap strip truth cols.
  Proof.
    unfold task_infos. destruct (desiredColumnMap strip truth cols) as [m|] eqn:E; [|done]. cbn [res_bind].
    apply read_entries_ok in E as (rs & _ & ->).
    destruct (fold_named rs ([], [])) as [H1 H2]; [split; [constructor|intros e H; by apply elem_of_nil in H]|].
    by apply there_and_back.
  Qed.

  Lemma task_asked cols rs : Forall2 (λ c r, read_entry strip truth c = Ok r) cols rs → NoDup (told_apart [] (map given rs)) →
    task_infos strip truth cols =
    Ok (zip_with (λ n r, (n, Desired n (r_column r) (default K_NONETYPE (r_type r)) (r_allow r))) (told_apart [] (map given rs)) rs).
  Proof.
    intros H Hnd. rewrite task_gets. unfold desiredColumnMap. apply read_entries_ok. exists rs. split; [done|].
    rewrite (add_desired_fold K_NONETYPE rs []); [done|done|done].
  Qed.

  (** ** One entry *)
  Lemma rename_ok v new : read_rename strip (default JNone v) = Ok new ↔ asks_name strip v new.
  Proof.
    unfold asks_name, some_text. destruct v as [[| |s|]|]; cbn; try (split; [by intros [= <-]|by intros ->]).
    destruct s as [|a s]; [split; [by intros [= <-]|by intros ->]|]. rewrite decide_False by done.
    destruct (decide (strip (String a s) = "")); split; try done.
    - by intros [? _].
    - by intros [= <-].
    - by intros [_ ->].
  Qed.

  Lemma type_ok v k : read_type (default JNone v) = Ok k ↔ asks_type v k.
  Proof.
    unfold asks_type. destruct v as [[| |s|]|]; cbn; try (split; [by intros [= <-]|by intros ->]); try (by split).
    destruct (toPageType s) as [k'|e] eqn:E; cbn.
    - apply toPageType_ok in E as E'. destruct E' as (name & Hin & Hs). split.
      + intros [= <-]. by exists name, k'.
      + intros (name' & k'' & Hin' & Hs' & ->).
        assert (E2 : toPageType s = Ok k'') by (apply toPageType_ok; by exists name'). congruence.
    - split; [done|]. intros (name' & k'' & Hin' & Hs' & ->).
      assert (E2 : toPageType s = Ok k'') by (apply toPageType_ok; by exists name'). congruence.
  Qed.

  Lemma read_entry_ok c r : read_entry strip truth c = Ok r ↔
    dget c "column" = Some (JText (r_column r)) ∧ asks_name strip (dget c "rename") (r_rename r) ∧
    asks_type (dget c "type") (r_type r) ∧
    match default (JBool false) (dget c "allow_empty") with JBool b => r_allow r = b | v => truth v = Ok (r_allow r) end.
  Proof.
    rewrite <-rename_ok, <-type_ok. unfold read_entry, dget_or. split.
    - destruct (dget c "column") as [[| |s|]|]; try done. cbn [res_bind].
      destruct (read_rename strip _) as [new|] eqn:E1; [|done]. cbn [res_bind].
      destruct (read_type _) as [ty|] eqn:E2; [|done]. cbn [res_bind].
      destruct (read_allow truth _) as [b|] eqn:E3; [|done]. cbn [res_bind].
      intros [= <-]. cbn. split; [done|]. split; [done|]. split; [done|].
      revert E3. destruct (default (JBool false) (dget c "allow_empty")); cbn; congruence.
    - intros (-> & H1 & H2 & H3). cbn [res_bind]. rewrite H1. cbn [res_bind]. rewrite H2. cbn [res_bind].
      assert (E3 : read_allow truth (default (JBool false) (dget c "allow_empty")) = Ok (r_allow r)).
      { destruct (default (JBool false) (dget c "allow_empty")); cbn; congruence. }
      rewrite E3. cbn [res_bind]. by destruct r.
  Qed.

  Lemma blank_name c n s : dget c "column" = Some (JText n) → dget c "rename" = Some (JText s) → s ≠ "" → strip s = "" →
    read_entry strip truth c = Err ValueError.
  Proof.
    intros H1 H2 Hs He. unfold read_entry, dget_or. rewrite H1, H2. cbn. rewrite decide_False by done.
    by rewrite decide_True.
  Qed.

  Lemma unknown_type c n s : dget c "column" = Some (JText n) → dget c "rename" = None → dget c "type" = Some (JText s) →
    (∀ name k, (name, k) ∈ type_names → ¬ spelled name s) → read_entry strip truth c = Err OtherError.
  Proof.
    intros H1 H2 H3 Hs. unfold read_entry, dget_or. rewrite H1, H2, H3. cbn. by rewrite toPageType_err.
  Qed.
End requests.
