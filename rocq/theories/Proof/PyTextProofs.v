From Coq Require Import String ZifyBool.
From Verif.Spec Require Import PyTexts.
From Verif.Proof Require Import DictLemmas NpyProofs InferProofs PyInferProofs.
From Verif.Model Require Import PyInfer.
Local Open Scope string_scope.
Local Open Scope list_scope.
Local Open Scope Z_scope.

(** ** Characters *)
Lemma digit_bool c : isDigit c = true ↔ digit c.
Proof. unfold isDigit, digit. lia. Qed.
Lemma all_digits_spec s : all_digits s = true ↔ Forall digit s.
Proof.
  unfold all_digits. rewrite forallb_forall, list.Forall_forall. setoid_rewrite digit_bool.
  by setoid_rewrite elem_of_list_In.
Qed.
Lemma has_spec c s : has c s = true ↔ c ∈ s.
Proof. unfold has. by rewrite bool_decide_eq_true. Qed.
Lemma has_false c s : has c s = false ↔ c ∉ s.
Proof. unfold has. by rewrite bool_decide_eq_false. Qed.
Lemma not_in_digits c s : ¬ digit c → Forall digit s → c ∉ s.
Proof. rewrite list.Forall_forall. auto. Qed.

Lemma pattern_app a b : pattern (a ++ b) = pattern a ++ pattern b.
Proof. apply map_app. Qed.
Lemma pattern_length s : length (pattern s) = length s.
Proof. apply map_length. Qed.
Lemma pattern_digits s : Forall digit s → pattern s = replicate (length s) 78.
Proof.
  induction 1 as [|c s Hc Hs IH]; [done|]. cbn. apply digit_bool in Hc. rewrite Hc. f_equal. exact IH.
Qed.
Lemma pattern_other c : ¬ digit c → pattern [c] = [c].
Proof. intros H. cbn. destruct (isDigit c) eqn:E; [by apply digit_bool in E|done]. Qed.
Lemma pattern_in c s : c ∈ s → ¬ digit c → c ∈ pattern s.
Proof.
  intros H Hc. apply elem_of_list_In, in_map_iff. exists c. split; [|by apply elem_of_list_In].
  destruct (isDigit c) eqn:E; [by apply digit_bool in E|done].
Qed.
Lemma pattern_in_inv c s : c ∈ pattern s → c ≠ 78 → c ∈ s.
Proof.
  intros (x & Hx & Hin)%elem_of_list_In%in_map_iff Hc. destruct (isDigit x); [congruence|]. subst.
  by apply elem_of_list_In.
Qed.
Lemma pattern_head c s : head s = Some c → head (pattern s) = Some (if isDigit c then 78 else c).
Proof. destruct s; cbn; [done|]. by intros [= ->]. Qed.

(** ** The keys of the formats *)
Lemma key_fact {V} (chk : list Z → bool) (d : list (list Z * V)) k v :
  forallb (λ e, chk e.1) d = true → dget d k = Some v → chk k = true.
Proof.
  intros Hd Hk. induction d as [|[k' v'] d IH]; [done|]. cbn in Hd, Hk. apply andb_prop in Hd as [H1 H2].
  case_decide; [by subst|by apply IH].
Qed.
Definition date_key (p : list Z) : bool :=
  bool_decide (head p = Some 78) && negb (has 44 p) && negb (has 58 p) && (8 <=? length p)%nat
  && negb (bool_decide (length (filter (λ c, c = 46) p) = 1%nat)).
Definition datetime_key (p : list Z) : bool :=
  bool_decide (head p = Some 78) && negb (has 44 p) && (10 <=? length p)%nat && negb (bool_decide (p !! 2%nat = Some 58))
  && ((10 <? length p)%nat || forallb (λ c, c =? 78) p) && (has 58 p || has 84 p || forallb (λ c, c =? 78) p).
Lemma date_keys k f : dget date_formats k = Some f → date_key k = true.
Proof. apply (key_fact date_key). by vm_compute. Qed.
Lemma datetime_keys k f : dget datetime_formats k = Some f → datetime_key k = true.
Proof. apply (key_fact datetime_key). by vm_compute. Qed.

Lemma no_date k : date_key k = false → dget date_formats k = None.
Proof. intros H. destruct (dget date_formats k) eqn:E; [|done]. apply date_keys in E. congruence. Qed.
Lemma no_datetime k : datetime_key k = false → dget datetime_formats k = None.
Proof. intros H. destruct (dget datetime_formats k) eqn:E; [|done]. apply datetime_keys in E. congruence. Qed.

Lemma date_key_head k : head k ≠ Some 78 → date_key k = false.
Proof. intros H. unfold date_key. by rewrite bool_decide_false. Qed.
Lemma datetime_key_head k : head k ≠ Some 78 → datetime_key k = false.
Proof. intros H. unfold datetime_key. by rewrite bool_decide_false. Qed.
Lemma date_key_comma k : 44 ∈ k → date_key k = false.
Proof. intros H. unfold date_key. rewrite (proj2 (has_spec 44 k)) by done. by rewrite andb_false_r. Qed.
Lemma datetime_key_comma k : 44 ∈ k → datetime_key k = false.
Proof. intros H. unfold datetime_key. rewrite (proj2 (has_spec 44 k)) by done. by rewrite andb_false_r. Qed.
Lemma date_key_colon k : 58 ∈ k → date_key k = false.
Proof. intros H. unfold date_key. rewrite (proj2 (has_spec 58 k)) by done. by rewrite andb_false_r. Qed.
Lemma date_key_short k : (length k < 8)%nat → date_key k = false.
Proof. intros H. unfold date_key. assert ((8 <=? length k)%nat = false) as -> by lia. by rewrite andb_false_r. Qed.
Lemma datetime_key_short k : (length k < 10)%nat → datetime_key k = false.
Proof.
  intros H. unfold datetime_key. assert ((10 <=? length k)%nat = false) as -> by lia.
  by rewrite andb_false_r, !andb_false_l.
Qed.

(** ** Searching *)
Lemma index_from_none c s i : c ∉ s → index_from c s i = -1.
Proof.
  revert i. induction s as [|x s IH]; intros i H; [done|]. apply not_elem_of_cons in H as [H1 H2]. cbn.
  destruct (Z.eqb_spec x c); [congruence|by apply IH].
Qed.
Lemma index_from_app c a b i : c ∉ a → index_from c (a ++ c :: b) i = i + zlen a.
Proof.
  revert i. induction a as [|x a IH]; intros i H; cbn [app index_from].
  - rewrite Z.eqb_refl. cbn. lia.
  - apply not_elem_of_cons in H as [H1 H2]. destruct (Z.eqb_spec x c); [congruence|].
    rewrite IH by done. cbn [length]. lia.
Qed.
Lemma index_from_range c s i : index_from c s i = -1 ∨ i <= index_from c s i < i + zlen s.
Proof.
  revert i. induction s as [|x s IH]; intros i; cbn [index_from]; [by left|].
  destruct (Z.eqb_spec x c); [right; cbn [length]; lia|]. destruct (IH (i + 1)); [by left|right; cbn [length]; lia].
Qed.
Lemma find_range c s k : find_char s c k = -1 ∨ Z.of_nat k <= find_char s c k < zlen s.
Proof.
  unfold find_char. destruct (index_from_range c (drop k s) (Z.of_nat k)) as [?|?]; [by left|right].
  rewrite drop_length in *. lia.
Qed.
Lemma upto_prefix n s : ∃ t, s = upto n s ++ t.
Proof. exists (drop (Z.to_nat (if n <? 0 then n + zlen s else n)) s). symmetry. apply take_drop. Qed.
Lemma upto_length n s : n = -1 ∨ 0 <= n <= zlen s → s ≠ [] →
  length (upto n s) = Z.to_nat (if n <? 0 then zlen s - 1 else n).
Proof. intros H Hs. unfold upto. rewrite take_length. destruct s; [done|]. cbn [length] in *. destruct (n <? 0) eqn:?; lia. Qed.

(** the cut of [infer_datetime] *)
Definition cut (s : list Z) : Z := if has 46 s then find_char s 46 11 else if has 44 s then find_char s 44 11 else zlen s.
Lemma cut_range s : cut s = zlen s ∨ cut s = -1 ∨ 11 <= cut s < zlen s.
Proof.
  unfold cut. destruct (has 46 s). { destruct (find_range 46 s 11); lia. }
  destruct (has 44 s); [destruct (find_range 44 s 11); lia|by left].
Qed.

Section Lib.
  Context (lib : py_lib) (law : iso_law (iso_date lib) (iso_datetime lib) (iso_time lib)).

  Lemma reject_datetime s : iso_datetime lib s = None → datetime_key (pattern (upto (cut s) s)) = false →
    infer_datetime lib s = Err ValueError.
  Proof. intros H1 H2. unfold infer_datetime. rewrite H1. fold (cut s). by rewrite no_datetime. Qed.
  Lemma reject_date s : iso_date lib s = None → date_key (pattern s) = false → infer_date lib s = Err ValueError.
  Proof. intros H1 H2. unfold infer_date. by rewrite H1, no_date. Qed.

  (** first four characters *)
  Lemma iso_reject s : (¬ Forall digit (take 4 s) ∨ zlen s < 7 ∨ ∃ c, s !! 4%nat = Some c ∧ c ≠ 45 ∧ ¬ digit c ∧ c ≠ 87) →
    iso_date lib s = None ∧ iso_datetime lib s = None.
  Proof using law.
    intros H. split.
    - destruct (iso_date lib s) eqn:E; [|done]. apply (law_date_shape _ _ _ law) in E as (H1 & H2 & c & H3 & H4). exfalso.
      destruct H as [?|[?|(c' & Hc' & ?)]]; [done|lia|]. rewrite H3 in Hc'. injection Hc' as <-. tauto.
    - destruct (iso_datetime lib s) eqn:E; [|done]. apply (law_datetime_shape _ _ _ law) in E as (H1 & H2 & c & H3 & H4). exfalso.
      destruct H as [?|[?|(c' & Hc' & ?)]]; [done|lia|]. rewrite H3 in Hc'. injection Hc' as <-. tauto.
  Qed.

  (** a text which begins with neither a digit nor N *)
  Lemma reject_head s c : head s = Some c → ¬ digit c → c ≠ 78 →
    infer_datetime lib s = Err ValueError ∧ infer_date lib s = Err ValueError.
  Proof using law.
    intros Hs Hc HN. destruct (iso_reject s) as [H1 H2].
    { left. destruct s; [done|]. cbn in Hs. injection Hs as ->. cbn. by intros [? _]%list.Forall_cons. }
    assert (isDigit c = false) as Ec by (by apply not_true_is_false; rewrite digit_bool).
    split.
    - apply reject_datetime; [done|]. apply datetime_key_head. destruct (upto_prefix (cut s) s) as [t Ht].
      destruct (upto (cut s) s) as [|x u]; [done|]. rewrite Ht in Hs. cbn in Hs. injection Hs as ->. cbn. rewrite Ec. congruence.
    - apply reject_date; [done|]. apply date_key_head. rewrite (pattern_head c s Hs), Ec. congruence.
  Qed.
  Lemma reject_time_head s c : head s = Some c → ¬ digit c → c ≠ 84 → infer_time lib s = Err ValueError.
  Proof using law.
    intros Hs Hc HT. unfold infer_time. destruct (has 58 s); [|done].
    destruct (iso_time lib s) eqn:E; [|done]. apply (law_time_shape _ _ _ law) in E as (c' & Hc' & H). rewrite Hs in Hc'.
    injection Hc' as <-. tauto.
  Qed.
  Lemma reject_time s : 58 ∉ s → infer_time lib s = Err ValueError.
  Proof. intros H. unfold infer_time. by rewrite (proj2 (has_false 58 s)). Qed.
End Lib.
