(** Proofs for Props/Workers.v. *)
From stdpp Require Import strings.
From Verif.Model Require Import Workers.
From Verif.Proof Require Import SliceLemmas SmallProofs.
Local Open Scope Z_scope.

Lemma import_fit mode counted tasks w : import_workers mode counted tasks = Ok (Some w) →
  1 <= w ∧ (∃ c, counted = Some c ∧ (w = c ∨ c < 1 ∧ w = 1)) ∧ mode ≠ ModeFalse ∧ (mode = ModeAuto → 2 <= w ∧ 2 <= tasks).
Proof.
  unfold import_workers, cpus_of. destruct counted as [c|]; [|done]. cbn [res_map].
  destruct mode; try done.
  - destruct (Z.leb_spec (Z.max c 1) 1); [done|]. destruct (Z.leb_spec tasks 1); [done|]. cbn. intros [= <-].
    split_and!; [lia| |done|lia]. exists c. split; [done|lia].
  - intros [= <-]. split_and!; [lia| |done|done]. exists c. split; [done|lia].
Qed.

Lemma select_fit mode counted pages w : select_workers mode counted pages = Ok (Some w) → 1 <= pages →
  fit w pages ∧ (∃ c, counted = Some c ∧ w <= Z.max c 1) ∧ mode ≠ ModeFalse ∧ (mode = ModeAuto → 2 <= w).
Proof.
  unfold select_workers, cpus_of, fit. destruct counted as [c|]; [|done]. cbn [res_map]. intros H Hp.
  destruct mode; try done.
  - destruct (Z.ltb_spec 1 (Z.max c 1)); [|done]. destruct (Z.ltb_spec 1 pages); [|done]. cbn in H. injection H as <-.
    split_and!; [lia|lia| |done|lia]. exists c. split; [done|lia].
  - injection H as <-. split_and!; [lia|lia| |done|done]. exists c. split; [done|lia].
Qed.

Lemma range_covers ps n : 0 < ps → 0 <= n →
  hold_all (map (λ start, (start, Z.min (start + ps) n)) (py_range 0 (n + 1) ps)) n.
Proof.
  intros Hps Hn. unfold hold_all.
  assert (∀ k a, 0 <= a → n + 1 - a <= Z.of_nat k * ps → (n + 1 <= a → n <= a) →
    concat (map (λ r, seqZ r.1 (r.2 - r.1)) (map (λ start, (start, Z.min (start + ps) n)) (py_range a (n + 1) ps))) = seqZ a (n - a)) as H.
  { induction k as [|k IH]; intros a Ha Hk _.
    - rewrite py_range_nil by lia. cbn. by rewrite seqZ_nil by lia.
    - destruct (decide (a < n + 1)).
      + rewrite py_range_cons by lia. cbn [map concat fst snd]. rewrite IH by lia.
        destruct (decide (a + ps <= n)).
        * replace (Z.min (a + ps) n - a) with ps by lia. replace (n - a) with (ps + (n - (a + ps))) by lia.
          by rewrite seqZ_app by lia.
        * rewrite (seqZ_nil (a + ps)) by lia. rewrite app_nil_r. f_equal. lia.
      + rewrite py_range_nil by lia. cbn. by rewrite seqZ_nil by lia. }
  rewrite (H (Z.to_nat (n + 1)) 0); [f_equal; lia|lia|nia|lia].
Qed.

Lemma range_count_steps ps n : 0 < ps → 0 <= n → zlen (py_range 0 (n + 1) ps) = n / ps + 1.
Proof.
  intros Hps Hn. rewrite py_range_length. unfold range_count. assert ((0 <? ps) = true) as -> by lia.
  replace (n + 1 - 0 + ps - 1) with (n + 1 * ps) by lia. rewrite Z.div_add by lia.
  pose proof (Z.div_pos n ps). lia.
Qed.

Lemma join_tasks_count ps n columns : 0 < ps → 0 <= n → zlen (join_tasks ps n columns) = zlen columns * (n / ps + 1).
Proof.
  intros Hps Hn. unfold join_tasks. induction columns as [|c columns IH]; [done|].
  cbn [map concat]. rewrite app_length, map_length, Nat2Z.inj_add, IH, range_count_steps by done. cbn [length]. lia.
Qed.

Lemma filter_other c d (l : list (Z * Z)) : c ≠ d → filter (λ t : string * (Z * Z), t.1 = c) (map (pair d) l) = [].
Proof. intros Hne. induction l as [|x l IH]; [done|]. cbn [map]. rewrite filter_cons_False by (cbn; congruence). done. Qed.
Lemma filter_same c (l : list (Z * Z)) : filter (λ t : string * (Z * Z), t.1 = c) (map (pair c) l) = map (pair c) l.
Proof. induction l as [|x l IH]; [done|]. cbn [map]. rewrite filter_cons_True by done. by rewrite IH. Qed.

Lemma join_tasks_cover ps n columns c : 0 < ps → 0 <= n → NoDup columns → c ∈ columns →
  hold_all (map snd (filter (λ t, t.1 = c) (join_tasks ps n columns))) n.
Proof.
  intros Hps Hn Hnd Hc. set (ranges := map (λ start, (start, Z.min (start + ps) n)) (py_range 0 (n + 1) ps)).
  assert (join_tasks ps n columns = concat (map (λ c, map (pair c) ranges) columns)) as ->.
  { unfold join_tasks. f_equal. apply map_ext. intros d. unfold ranges. by rewrite map_map. }
  assert (∀ l, c ∉ l → filter (λ t : string * (Z * Z), t.1 = c) (concat (map (λ c, map (pair c) ranges) l)) = []) as Hno.
  { induction l as [|d l IH]; intros Hd; [done|]. apply not_elem_of_cons in Hd as [Hd Hl].
    cbn [map concat]. rewrite list.filter_app, filter_other, IH by done. done. }
  assert (filter (λ t : string * (Z * Z), t.1 = c) (concat (map (λ c, map (pair c) ranges) columns)) = map (pair c) ranges) as ->.
  { induction Hnd as [|d l Hd Hnd IH]; [by apply not_elem_of_nil in Hc|]. cbn [map concat]. rewrite list.filter_app.
    apply elem_of_cons in Hc as [->|Hc].
    - by rewrite filter_same, Hno, app_nil_r by done.
    - rewrite filter_other, IH by (congruence || done). done. }
  rewrite map_map. cbn [snd]. rewrite map_id. by apply range_covers.
Qed.

Lemma join_pool mode limit vpus counted free fields (B : Type) (tasks : list B) w :
  join_workers mode limit vpus counted free fields tasks = Ok (Some w) →
  w = Z.min (Z.min vpus (zlen tasks)) (free / memory_of_worker) ∧ mode ≠ ModeFalse.
Proof.
  unfold join_workers, uses_mp, vpus_for, is_mp. change 300000000 with memory_of_worker. generalize memory_of_worker. intros m.
  destruct mode, counted as [c|]; try done.
  - destruct (fields <? limit); [done|]. destruct (Z.max (default 1 (Some c)) 1 <? 2); [done|]. cbn [res_bind res_map]. by intros [= <-].
  - by destruct (fields <? limit).
  - cbn [res_bind res_map]. by intros [= <-].
  - cbn [res_bind res_map]. by intros [= <-].
Qed.

Lemma join_fit mode limit vpus counted free fields ps n columns w :
  0 < ps → 0 <= n → columns ≠ [] → 1 <= vpus → memory_of_worker <= free →
  join_workers mode limit vpus counted free fields (join_tasks ps n columns) = Ok (Some w) →
  fit w (zlen (join_tasks ps n columns)) ∧ w <= vpus ∧ w * memory_of_worker <= free ∧ mode ≠ ModeFalse.
Proof.
  intros Hps Hn Hc Hv Hf H. apply join_pool in H as [-> Hm].
  assert (1 <= zlen (join_tasks ps n columns)) as Ht.
  { rewrite join_tasks_count by done. pose proof (Z.div_pos n ps). destruct columns; [done|]. cbn [length]. nia. }
  assert (memory_of_worker = 300000000) as HM by done. generalize dependent memory_of_worker. intros m Hf HM.
  assert (1 <= free / m) by (apply Z.div_le_lower_bound; lia).
  pose proof (Z.mul_div_le free m ltac:(lia)) as Hdiv. unfold fit. split_and!; [lia|lia|lia| |done].
  set (w := Z.min _ _). assert (w <= free / m) by lia. nia.
Qed.

Lemma join_default mode limit cpus counted free fields ps n columns w :
  0 < ps → 0 <= n → columns ≠ [] → memory_of_worker <= free →
  join_workers mode limit (config_vpus cpus) counted free fields (join_tasks ps n columns) = Ok (Some w) →
  fit w (zlen (join_tasks ps n columns)) ∧ (w < cpus ∨ w = 1).
Proof.
  intros Hps Hn Hc Hf H. apply join_fit in H as (Hfit & Hv & _); try done; [|unfold config_vpus; lia].
  split; [done|]. unfold config_vpus, fit in *. lia.
Qed.

Lemma join_memory mode limit vpus counted free fields (B : Type) (tasks : list B) w :
  0 <= free < memory_of_worker → 0 <= vpus →
  join_workers mode limit vpus counted free fields tasks = Ok (Some w) → w = 0.
Proof.
  intros Hf Hv H. apply join_pool in H as [-> _]. rewrite (Z.div_small free memory_of_worker) by done. lia.
Qed.

Lemma join_mode mode limit vpus counted free fields (B : Type) (tasks : list B) c :
  counted = Some c → ∃ w, join_workers mode limit vpus counted free fields tasks = Ok w.
Proof.
  intros ->. unfold join_workers, uses_mp, vpus_for, is_mp. destruct mode; [| |].
  - destruct (fields <? limit); [by eexists|]. destruct (Z.max (default 1 (Some c)) 1 <? 2); by eexists.
  - by eexists.
  - by eexists.
Qed.

Lemma where_tasks_count {A T} ps (t : table string A T) n left_keys right_keys :
  0 < ps → 0 <= n → length left_keys = length right_keys →
  (length left_keys <= length (where_tasks ps t n left_keys right_keys))%nat.
Proof.
  intros Hps Hn. unfold where_tasks. revert right_keys. induction left_keys as [|l ls IH]; intros [|r rs] Hl; try done; cbn in *.
  rewrite app_length, map_length. specialize (IH rs ltac:(lia)).
  destruct (page_steps ps n) as [|s steps] eqn:Hs; [|cbn [length]; lia].
  unfold page_steps in Hs. pose proof (range_count_steps ps n Hps Hn). pose proof (Z.div_pos n ps Hn Hps).
  destruct (length (py_range 0 (n + 1) ps)) eqn:Hlen; [lia|]. discriminate Hs.
Qed.
