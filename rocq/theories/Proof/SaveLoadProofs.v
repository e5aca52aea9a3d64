(** Saving and loading. *)
From stdpp Require Import strings.
From Verif.Spec Require Import Rows.
From Verif.Model Require Import SaveLoad.
From Verif.Proof Require Import ColumnRead ColumnMisc DictLemmas TableBase.
Local Open Scope Z_scope.

Section saveload.
  Context {N A T : Type} `{EqDecision N, EqDecision T} (ty : A → T) (set_of : list (fpage A T) → list (fpage A T)).
  Context (set_ok : ∀ l p, p ∈ set_of l ↔ p ∈ l).
  Notation ftable := (list (N * list (fpage A T))).

  (** pages of the same file name have the same values *)
  Definition named_apart (t : ftable) : Prop := ∀ c d p q, c ∈ t → d ∈ t → p ∈ c.2 → q ∈ d.2 →
    fname p = fname q → pdata (fpg p) = pdata (fpg q).

  Lemma elem_of_entries (t : ftable) n v : (n, v) ∈ save_entries set_of t ↔
    ∃ c p, c ∈ t ∧ p ∈ c.2 ∧ fname p = n ∧ pdata (fpg p) = v.
  Proof using set_ok.
    unfold save_entries. rewrite elem_of_list_In, in_concat. split.
    - intros (l & Hl & Hin). apply in_map_iff in Hl as (c & <- & Hc). apply in_map_iff in Hin as (p & [= <- <-] & Hp).
      apply elem_of_list_In in Hp. apply (proj1 (set_ok _ _)) in Hp. apply elem_of_list_In in Hc. by exists c, p.
    - intros (c & p & Hc & Hp & <- & <-). eexists. split; [apply in_map_iff; exists c; split; [done|by apply elem_of_list_In]|].
      apply in_map_iff. exists p. split; [done|]. by apply elem_of_list_In, set_ok.
  Qed.

  Lemma read_entry_unique (es : list (string * list A)) n v : (n, v) ∈ es → (∀ w, (n, w) ∈ es → w = v) →
    read_entry es n = Some v.
  Proof using Type.
    clear set_ok set_of ty. intros Hin Hu. unfold read_entry.
    assert (Hall : ∀ w, w ∈ omap (λ e : string * list A, if decide (e.1 = n) then Some e.2 else None) es → w = v).
    { intros w ([m x] & Hx & Hw)%elem_of_list_omap. cbn in Hw. case_decide; [|done]. injection Hw as ->. subst.
      by apply Hu. }
    destruct (list.last _) as [w|] eqn:E.
    - f_equal. apply Hall. apply last_Some in E as [l' ->]. apply elem_of_app. right. by left.
    - apply last_None in E. exfalso.
      assert (H : v ∈ omap (λ e : string * list A, if decide (e.1 = n) then Some e.2 else None) es).
      { apply elem_of_list_omap. exists (n, v). split; [done|]. cbn. by rewrite decide_True. }
      rewrite E in H. by apply elem_of_nil in H.
  Qed.

  Lemma load_column_spec ps es (pages : list (fpage A T)) c : 0 < ps →
    (∀ p, p ∈ pages → read_entry es (fname p) = Some (pdata (fpg p))) → types_ok ty c →
    ∃ c', load_column ty ps es (map fname pages) c = Ok c' ∧ col_iter c' = col_iter c ++ col_iter (map fpg pages) ∧
      types_ok ty c'.
  Proof using Type.
    clear set_ok set_of. intros Hps. revert c. induction pages as [|p pages IH]; intros c Hr Hc; cbn [map load_column].
    - exists c. split; [done|]. by rewrite app_nil_r.
    - rewrite (Hr p) by left. destruct (IH (col_extend ty ps c (pdata (fpg p)))) as (c' & -> & Hi & Ht).
      + intros q Hq. apply Hr. by right.
      + by apply col_extend_types.
      + exists c'. split; [done|]. split; [|done]. rewrite Hi, col_extend_iter by done.
        rewrite col_iter_cons. by rewrite app_assoc.
  Qed.

  Lemma load_columns_spec ps es (t : ftable) acc : 0 < ps →
    (∀ c p, c ∈ t → p ∈ c.2 → read_entry es (fname p) = Some (pdata (fpg p))) →
    NoDup t.*1 → (∀ n, n ∈ t.*1 → n ∉ acc.*1) → Forall (λ c, types_ok ty c.2) acc →
    ∃ t', load_columns ty ps es (save_yml t) acc = Ok t' ∧ contents t' = contents acc ++ contents (plain t) ∧
      Forall (λ c, types_ok ty c.2) t'.
  Proof using Type.
    clear set_ok set_of. intros Hps. revert acc. induction t as [|[n pages] t IH]; intros acc Hr Hnd Hf Hok;
      cbn [save_yml map load_columns fst snd].
    - exists acc. split; [done|]. by rewrite app_nil_r.
    - apply list.NoDup_cons in Hnd as [Hn Hnd]. cbn in Hn.
      destruct (load_column_spec ps es pages [] Hps) as (c & -> & Hi & Ht).
      { intros p Hp. apply (Hr (n, pages)); [by left|done]. }
      { constructor. }
      cbn [res_bind].
      assert (Hacc : dset acc n c = acc ++ [(n, c)]).
      { assert (Hna : n ∉ acc.*1) by (apply Hf; by left). clear -Hna.
        induction acc as [|[m d] acc IH]; [done|]. cbn [dset]. cbn in Hna. apply not_elem_of_cons in Hna as [Hne Hna].
        rewrite decide_False by done. cbn. f_equal. by apply IH. }
      rewrite Hacc. destruct (IH (acc ++ [(n, c)])) as (t' & Hl & Hc & Hok').
      + intros c' p Hc' Hp. apply (Hr c'); [by right|done].
      + done.
      + intros m Hm. rewrite fmap_app, not_elem_of_app. split; [apply Hf; by right|].
        cbn. rewrite elem_of_list_singleton. intros ->. done.
      + apply Forall_app. split; [done|]. by apply Forall_singleton.
      + exists t'. split; [exact Hl|]. split; [|done]. rewrite Hc. unfold contents. rewrite map_app. cbn [map fst snd].
        rewrite <- app_assoc. cbn. rewrite Hi. done.
  Qed.

  Theorem save_load ps (t : ftable) : 0 < ps → NoDup t.*1 → named_apart t →
    ∃ t', load ty ps (save set_of t).1 = Ok t' ∧ contents t' = contents (plain t) ∧ Forall (λ c, types_ok ty c.2) t'.
  Proof using set_ok.
    intros Hps Hnd Ha. unfold load, save. cbn [fst yml entries].
    destruct (load_columns_spec ps (save_entries set_of t) t []) as (t' & Hl & Hc & Ht); [done| |done| |constructor|].
    - intros c p Hc Hp. apply read_entry_unique.
      + apply elem_of_entries. by exists c, p.
      + intros w (d & q & Hd & Hq & Hn & <-)%elem_of_entries. exact (Ha d c q p Hd Hc Hq Hp Hn).
    - intros n _ Hn. by apply elem_of_nil in Hn.
    - by exists t'.
  Qed.

  Theorem save_ends (t : ftable) : (save set_of t).2 = Ok () ↔ ∃ c, c ∈ t ∧ c.2 ≠ [].
  Proof using Type.
    clear set_ok. unfold save. cbn [snd]. split.
    - destruct (Nat.eqb_spec (sum_list (map (λ c : N * list (fpage A T), length c.2) t)) 0) as [E|E]; [done|]. intros _.
      induction t as [|c t IH]; [done|]. cbn in E. destruct c as [n [|p ps]].
      + destruct IH as (c & Hc & Hne); [done|]. exists c. split; [by right|done].
      + exists (n, p :: ps). split; [by left|done].
    - intros (c & Hc & Hne). destruct (Nat.eqb_spec (sum_list (map (λ c : N * list (fpage A T), length c.2) t)) 0) as [E|E]; [|done].
      exfalso. induction t as [|d t IH]; [by apply elem_of_nil in Hc|]. cbn in E.
      apply elem_of_cons in Hc as [->|Hc]; [destruct (d.2); [done|cbn in E; lia]|]. apply IH; [done|lia].
  Qed.
End saveload.
