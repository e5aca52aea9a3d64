(** Lemmas on replacing values in a table. *)
From Coq Require Import String.
From Verif.Spec Require Import Counts.
From Verif.Model Require Import TableReplace Dtype.
From Verif.Proof Require Import ColumnMisc.
Local Open Scope Z_scope.

Section table.
  Context {N A T : Type} `{EqDecision N, EqDecision T}.
  Context (ty : A → T) (cast : list (page A T) → A → res A) (np_array : list A → list A) (eqb : A → A → bool).
  Notation column := (column A T).
  Notation table := (list (N * column)).
  Notation replace_pages := (replace_pages ty cast np_array eqb).
  Notation replace_columns := (replace_columns ty cast np_array eqb).
  Notation table_replace := (table_replace ty cast np_array eqb).

  Lemma replace_pages_ok m c c' : col_replace ty cast np_array eqb c m = Ok c' → replace_pages m c = (c', None).
  Proof using.
    revert c'. induction c as [|p c IH]; intros c'; simpl; [by intros [= <-]|].
    destruct (replace_page ty cast np_array eqb m p) as [p'|]; [|done]. simpl.
    destruct (col_replace ty cast np_array eqb c m) as [c1|] eqn:Hc; [|done]. intros [= <-].
    by rewrite (IH c1).
  Qed.

  Lemma column_of_Some (t : table) n c : NoDup (map fst t) → (column_of t n = Some c ↔ (n, c) ∈ t).
  Proof using.
    intros Hnd. unfold column_of. induction t as [|[x cx] t IH].
    { simpl. split; [done | intros H; by apply elem_of_nil in H]. }
    simpl in Hnd. apply list.NoDup_cons in Hnd as [Hx Hnd]. simpl. destruct (decide (x = n)) as [->|Hn]; simpl.
    - split.
      + intros [= ->]. by left.
      + intros [[= ->]|Hin]%elem_of_cons; [done|]. exfalso. apply Hx. apply elem_of_list_fmap. by exists (n, c).
    - rewrite elem_of_cons. destruct (list_find _ t) as [[i q]|] eqn:Hf; simpl in *; rewrite <- IH by done.
      + split; [by right | intros [[= ? ?]|?]; [congruence|done]].
      + split; [by right | intros [[= ? ?]|?]; [congruence|done]].
  Qed.

  Lemma put_names (t : table) n c : map fst (put_column t n c) = map fst t.
  Proof using.
    unfold put_column. rewrite map_map. apply map_ext. intros [x cx]. simpl. by destruct (decide (x = n)) as [->|].
  Qed.

  (** What is asked of a column for its replacement. *)
  Definition holds (m : list (A * A)) (c : column) : Prop := ∀ p, p ∈ c → Forall (λ kv, cast [p] kv.2 = Ok kv.2) m.

  Definition replaced (m : list (A * A)) (c c' : column) : Prop :=
    col_iter c' = map (subst_value eqb m) (col_iter c) ∧ map plen c' = map plen c ∧ (types_ok ty c → types_ok ty c').

  Lemma replace_columns_spec m ns (t : table) :
    np_array (map fst m) = map fst m → NoDup (map fst t) → NoDup ns →
    (∀ n, n ∈ ns → ∃ c, (n, c) ∈ t ∧ holds m c) →
    ∃ t', replace_columns m ns t = (t', None) ∧
      Forall2 (λ x y, x.1 = y.1 ∧ (x.1 ∈ ns → replaced m x.2 y.2) ∧ (x.1 ∉ ns → x.2 = y.2)) t t'.
  Proof using.
    intros Hnp. revert t. induction ns as [|n ns IH]; intros t Ht Hns Hall.
    { exists t. split; [done|]. clear. induction t; constructor; [|done]. split; [done|]. split; [|done].
      intros H. by apply elem_of_nil in H. }
    apply list.NoDup_cons in Hns as [Hn Hns]. destruct (Hall n) as (c & Hc & Hh); [by left|].
    simpl. rewrite (proj2 (column_of_Some t n c Ht) Hc).
    destruct (col_replace_spec ty cast np_array eqb c m Hnp Hh) as (c' & Hr & H1 & H2 & H3).
    rewrite (replace_pages_ok m c c' Hr).
    destruct (IH (put_column t n c')) as (t' & Hrec & Hf); [by rewrite put_names | done | |].
    - intros x Hx. destruct (Hall x) as (cx & Hcx & Hhx); [by right|]. exists cx. split; [|done].
      apply elem_of_list_fmap. exists (x, cx). simpl. split; [|done]. rewrite decide_False; [done|]. intros ->. done.
    - exists t'. split; [done|].
      assert (∀ x, x ∈ t → x.1 = n → x.2 = c) as Hu.
      { intros [x cx] Hx Hxn. simpl in *. subst x. apply (column_of_Some t n) in Hx; [|done].
        apply (column_of_Some t n) in Hc; [|done]. congruence. }
      clear Hrec Hc Hall Ht IH. unfold put_column in Hf. revert t' Hf.
      induction t as [|[x cx] t IHt]; intros t' Hf; simpl in Hf.
      + by inversion Hf.
      + inversion Hf as [|? [y cy] ? t1 (E1 & E2 & E3) Hrest]; subst. constructor.
        2: { apply IHt; [|done]. intros q Hq. apply Hu. by right. }
        simpl in *. destruct (decide (x = n)) as [->|Hxn]; simpl in *.
        * subst y. assert (cx = c) as -> by (apply (Hu (n, cx)); [by left|done]). split; [done|]. split.
          -- intros _. rewrite <- (E3 Hn). done.
          -- intros Hno. exfalso. apply Hno. by left.
        * subst y. split; [done|]. split.
          -- intros [->|Hin]%elem_of_cons; [done|]. by apply E2.
          -- intros Hno. apply E3. intros Hin. apply Hno. by right.
  Qed.

  Lemma table_replace_spec m columns (t : table) ns :
    np_array (map fst m) = map fst m → NoDup (map fst t) →
    match columns with AllColumns => ns = map fst t | OneName n => ns = [n] | Names l => ns = l end →
    NoDup ns → (∀ n, n ∈ ns → ∃ c, (n, c) ∈ t ∧ holds m c) →
    ∃ t', table_replace m columns t = (t', None) ∧
      Forall2 (λ x y, x.1 = y.1 ∧ (x.1 ∈ ns → replaced m x.2 y.2) ∧ (x.1 ∉ ns → x.2 = y.2)) t t'.
  Proof using.
    intros Hnp Ht Harg Hns Hall.
    destruct (replace_columns_spec m ns t Hnp Ht Hns Hall) as (t' & Hr & Hf). exists t'. split; [|done].
    unfold TableReplace.table_replace.
    assert (∀ n, n ∈ ns → n ∈ map fst t) as Hin.
    { intros n Hn. destruct (Hall n Hn) as (c & Hc & _). apply elem_of_list_fmap. by exists (n, c). }
    assert (forallb (λ n, bool_decide (n ∈ map fst t)) ns = true) as Hb.
    { apply forallb_forall. intros n Hn. apply bool_decide_eq_true. apply Hin. by apply elem_of_list_In. }
    destruct columns as [|n|l]; subst ns; [by rewrite Hb | | by rewrite Hb].
    rewrite decide_True by (apply Hin; by left). by rewrite Hb.
  Qed.

  Lemma table_replace_unknown m columns (t : table) n :
    n ∉ map fst t → columns = OneName n ∨ (∃ l, columns = Names l ∧ n ∈ l) →
    ∃ e, table_replace m columns t = (t, Some e) ∧ (e = TypeError ∨ e = ValueError).
  Proof using.
    intros Hn [->|(l & -> & Hl)]; unfold TableReplace.table_replace.
    - rewrite decide_False by done. eauto.
    - destruct (forallb _ l) eqn:Hb; [|eauto]. exfalso. apply Hn.
      rewrite forallb_forall in Hb. apply elem_of_list_In in Hl. by apply Hb, bool_decide_eq_true in Hl.
  Qed.

  (** Whatever happens, all pages keep their lengths. *)
  Lemma put_masked_length (data : list A) mask w : length (put_masked data mask w) = length data.
  Proof using.
    revert mask w. induction data as [|x data IH]; intros [|b mask] w; [done|done|done|].
    destruct b, w; simpl; by rewrite IH.
  Qed.
  Lemma replace_page_len m p p' : replace_page ty cast np_array eqb m p = Ok p' → plen p' = plen p.
  Proof using.
    unfold replace_page. destruct (existsb id _); [|by intros [= <-]].
    destruct (replace_loop _ _ _ _ _ _) as [r|]; [|done]. intros [= <-]. unfold plen. simpl. by rewrite put_masked_length.
  Qed.
  Lemma replace_pages_len m c : map plen (replace_pages m c).1 = map plen c.
  Proof using.
    induction c as [|p c IH]; [done|]. simpl.
    destruct (replace_page ty cast np_array eqb m p) as [p'|] eqn:Hp; [|done]. apply replace_page_len in Hp.
    destruct (replace_pages m c) as [c' e]. simpl in *. by rewrite Hp, IH.
  Qed.
  Notation kept := (Forall2 (λ x y : N * column, x.1 = y.1 ∧ map plen y.2 = map plen x.2)).
  Lemma kept_refl t : kept t t.
  Proof using. induction t; by constructor. Qed.
  Lemma kept_trans t1 t2 t3 : kept t1 t2 → kept t2 t3 → kept t1 t3.
  Proof using.
    intros H. revert t3. induction H as [|x y t1 t2 [E1 E2] _ IH]; intros t3 H3; inversion H3 as [|? z ? ? [E3 E4] Hr]; subst; constructor.
    - split; [congruence|]. by rewrite E4.
    - by apply IH.
  Qed.
  Lemma put_kept (t : table) n c c' : NoDup (map fst t) → column_of t n = Some c → map plen c' = map plen c → kept t (put_column t n c').
  Proof using.
    intros Hnd Hc Hp.
    assert (∀ x, x ∈ t → x.1 = n → x.2 = c) as Hu.
    { intros [x cx] Hx Hxn. simpl in *. subst x. apply (column_of_Some t n) in Hx; [|done]. congruence. }
    clear Hnd Hc. unfold put_column. induction t as [|[x cx] t IH]; simpl; constructor.
    - destruct (decide (x = n)) as [->|]; simpl; [|done]. split; [done|]. assert (cx = c) as -> by (apply (Hu (n, cx)); [by left|done]). done.
    - apply IH. intros y Hy. apply Hu. by right.
  Qed.
  Lemma replace_columns_kept m ns (t : table) : NoDup (map fst t) → kept t (replace_columns m ns t).1.
  Proof using.
    revert t. induction ns as [|n ns IH]; intros t Hnd; [apply kept_refl|]. simpl.
    destruct (column_of t n) as [c|] eqn:Hc; [|apply kept_refl].
    pose proof (replace_pages_len m c) as Hl. destruct (replace_pages m c) as [c' [e|]]; simpl in *.
    - by eapply put_kept.
    - eapply kept_trans; [by eapply put_kept|]. apply IH. by rewrite put_names.
  Qed.
  Lemma table_replace_kept m columns (t : table) : NoDup (map fst t) → kept t (table_replace m columns t).1.
  Proof using.
    intros Hnd. unfold TableReplace.table_replace.
    destruct (match columns with AllColumns => _ | OneName _ => _ | Names _ => _ end) as [ns|]; [|apply kept_refl].
    destruct (forallb _ ns); [by apply replace_columns_kept|apply kept_refl].
  Qed.
End table.

Notation creplace := (table_replace (N:=Z) cty np_cast np_array_of ceqb).

Lemma replace_twice :
  ∃ m ns t t', NoDup (map fst t) ∧ (∀ n, n ∈ ns → n ∈ map fst t) ∧ creplace m (Names ns) t = (t', None) ∧
    map (col_iter ∘ snd) t' ≠ map (map (subst_value ceqb m) ∘ col_iter ∘ snd) t.
Proof.
  exists [(CInt 1, CInt 2); (CInt 2, CInt 3)], [0; 0], [(0, [new_page cty [CInt 1]])], [(0, [new_page cty [CInt 3]])].
  split_and!; [apply NoDup_singleton| |by vm_compute|by vm_compute].
  intros n. simpl. rewrite !elem_of_cons. naive_solver.
Qed.

Lemma replace_half :
  ∃ m t t' e, NoDup (map fst t) ∧ creplace m AllColumns t = (t', Some e) ∧
    map (col_iter ∘ snd) t' ≠ map (col_iter ∘ snd) t.
Proof.
  exists [(CInt 1, CInt 2); (CInt 5, CNone)], [(0, [new_page cty [CInt 1]]); (1, [new_page cty [CInt 5]])].
  eexists _, _. split_and!; [|by vm_compute|by vm_compute].
  simpl. apply list.NoDup_cons. split; [|apply NoDup_singleton]. rewrite elem_of_list_singleton. done.
Qed.
