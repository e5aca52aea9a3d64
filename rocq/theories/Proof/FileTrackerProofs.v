(** Proofs about Model/FileTracker.v. *)
From Verif.Model Require Import FileTracker.
Local Open Scope Z_scope.

Section tracker.
  Context {P B : Type} `{EqDecision P}.
  Notation op := (file_op B).
  Notation files := (files P B).
  Notation handle := (handle P B).

  Lemma written_app i (a b : list op) : written i (a ++ b) = written i a ++ written i b.
  Proof using. induction a as [|[j bs|j] a IH]; cbn [app written]; rewrite ?IH, ?app_assoc; done. Qed.

  Lemma set_same (f : files) p c : set_file f p c p = Some c.
  Proof using. unfold set_file. by rewrite decide_True. Qed.
  Lemma set_other (f : files) p c q : q ≠ p → set_file f p c q = f q.
  Proof using. intros H. unfold set_file. by rewrite decide_False. Qed.

  Lemma created pages (f : files) q :
    fold_left create pages f q = if decide (q ∈ pages) then Some [] else f q.
  Proof using.
    revert f. induction pages as [|p l IH]; intros f; cbn [fold_left].
    - rewrite decide_False; [done|apply not_elem_of_nil].
    - rewrite IH. destruct (decide (q ∈ l)) as [H|H].
      + rewrite decide_True; [done|]. by right.
      + destruct (decide (q = p)) as [->|E].
        * rewrite decide_True; [|left]. unfold create. apply set_same.
        * rewrite decide_False; [|by rewrite elem_of_cons; intros [?|?]]. unfold create. by apply set_other.
  Qed.

  (** What has been written to the disk and what is still in the buffer. *)
  Definition holds (f : files) (p : P) (o : option handle) (bytes : list B) : Prop :=
    ∃ c, f p = Some c ∧
      match o with
      | Some h => h_path h = p ∧ c ++ h_buf h = bytes ∧ (h_pos h = None ∨ h_pos h = Some (length c))
      | None => c = bytes
      end.

  Lemma flush_holds h f p bytes : holds f p (Some h) bytes →
    (flush h f).1 = Handle p (h_pos (flush h f).1) [] ∧
    holds (flush h f).2 p (Some (flush h f).1) bytes ∧ holds (flush h f).2 p None bytes ∧
    (∀ q, q ≠ p → (flush h f).2 q = f q) ∧ (h_pos h = None → h_pos (flush h f).1 = None).
  Proof using.
    intros (c & Hf & Hp & Hb & Hpos). unfold flush. rewrite Hp, Hf. cbn [default from_option]. change (default [] (Some c)) with c.
    destruct Hpos as [E|E]; rewrite E; cbn [fst snd h_pos].
    - split; [done|]. repeat split; try done.
      + exists (c ++ h_buf h). rewrite set_same. repeat split; cbn [h_path h_buf h_pos]; [by rewrite app_nil_r|by left].
      + exists (c ++ h_buf h). by rewrite set_same.
      + intros q Hq. by apply set_other.
    - rewrite (take_ge c) by lia. rewrite (drop_ge c) by lia. rewrite (app_nil_r (h_buf h)).
      split; [done|]. repeat split; try done.
      + exists (c ++ h_buf h). rewrite set_same. repeat split; cbn [h_path h_buf h_pos]; [by rewrite app_nil_r|].
        right. by rewrite app_length.
      + exists (c ++ h_buf h). by rewrite set_same.
      + intros q Hq. by apply set_other.
  Qed.

  Lemma holds_ext (f g : files) p o bytes : f p = g p → holds f p o bytes → holds g p o bytes.
  Proof using. intros E (c & Hc & H). exists c. by rewrite <-E. Qed.
  Lemma put_holds f p h bytes more : holds f p (Some h) bytes → holds f p (Some (put_bytes more h)) (bytes ++ more).
  Proof using.
    intros (c & Hc & Hp & Hb & Hpos). exists c. split; [done|]. unfold put_bytes. cbn [h_path h_buf h_pos].
    split; [done|]. split; [|done]. by rewrite app_assoc, Hb.
  Qed.

  (** The same invariant for both kinds. *)
  Definition all_hold (pages : list P) (f0 f : files) (get : nat → option handle) (done : list op) : Prop :=
    (∀ i p, pages !! i = Some p → holds f p (get i) (written i done)) ∧ (∀ q, q ∉ pages → f q = f0 q).

  Definition tracker_ok (limit : Z) (pages : list P) (t : tracker P B) : Prop :=
    match t with
    | Simple hs => length hs = length pages ∧ zlen pages <= limit
    | Deferred pages' hs n order =>
        pages' = pages ∧ length hs = length pages ∧ n = zlen order ∧ n = open_files t ∧ n <= limit ∧ NoDup order ∧
        (∀ i, i ∈ order → ∃ h, hs !! i = Some (Some h)) ∧
        (∀ i h, hs !! i = Some (Some h) → h_pos h = None)
    end.
  Definition good (limit : Z) (pages : list P) (f0 : files) (w : world P B) (done : list op) : Prop :=
    tracker_ok limit pages (state w) ∧ all_hold pages f0 (disk w) (handle_of (state w)) done.

  Lemma page_index pages (p : P) i j : NoDup pages → pages !! i = Some p → pages !! j = Some p → i = j.
  Proof using. intros H ??. by eapply NoDup_lookup. Qed.

  Lemma none_open n : filter (λ o : option handle, is_Some o) (replicate n None) = [].
  Proof using. induction n as [|n IH]; [done|]. cbn [replicate]. rewrite filter_cons_False; [done|]. by intros [? ?]. Qed.

  Lemma new_good limit pages f0 : 1 <= limit → NoDup pages → good limit pages f0 (new_tracker limit pages f0) [].
  Proof using.
    intros Hl Hnd. unfold good, new_tracker. destruct (Z.leb_spec (zlen pages) limit) as [H|H]; cbn [state disk tracker_ok].
    - split; [by rewrite map_length|]. split.
      + intros i p Hp. cbn [handle_of]. rewrite list_lookup_fmap, Hp. cbn. exists []. rewrite created, decide_True by (by eapply elem_of_list_lookup_2).
        split; [done|]. cbn. split; [done|]. split; [done|by right].
      + intros q Hq. by rewrite created, decide_False.
    - split.
      + split; [done|]. split; [by rewrite replicate_length|]. split; [done|].
        split; [|split; [lia|split; [constructor|split]]].
        * cbn [open_files]. by rewrite none_open.
        * intros i Hi. by apply elem_of_nil in Hi.
        * intros i h Hh. apply lookup_replicate in Hh as [? _]. done.
      + split.
        * intros i p Hp. cbn [handle_of]. rewrite lookup_replicate_2 by (by eapply lookup_lt_Some). cbn [mjoin option_join].
          exists []. rewrite created, decide_True by (by eapply elem_of_list_lookup_2). done.
        * intros q Hq. by rewrite created, decide_False.
  Qed.

  (** Counting the open files. *)
  Lemma open_cons o (hs : list (option handle)) : length (filter (λ o, is_Some o) (o :: hs)) =
    ((match o with Some _ => 1 | None => 0 end) + length (filter (λ o, is_Some o) hs))%nat.
  Proof using. destruct o as [h|]; [by rewrite filter_cons_True|]. rewrite filter_cons_False; [done|]. by intros [? ?]. Qed.
  Lemma open_some (hs : list (option handle)) i h : hs !! i = Some None →
    length (filter (λ o, is_Some o) (<[i := Some h]> hs)) = S (length (filter (λ o, is_Some o) hs)).
  Proof using.
    revert i. induction hs as [|o hs IH]; intros [|i] H; try done.
    - injection H as ->. change (<[0%nat := Some h]> (None :: hs)) with (Some h :: hs). by rewrite !open_cons.
    - change (<[S i := Some h]> (o :: hs)) with (o :: <[i := Some h]> hs). rewrite !open_cons, (IH i H). lia.
  Qed.
  Lemma open_none (hs : list (option handle)) i h : hs !! i = Some (Some h) →
    length (filter (λ o, is_Some o) hs) = S (length (filter (λ o, is_Some o) (<[i := None]> hs))).
  Proof using.
    revert i. induction hs as [|o hs IH]; intros [|i] H; try done.
    - injection H as ->. change (<[0%nat := None]> (Some h :: hs)) with (None :: hs). by rewrite !open_cons.
    - change (<[S i := None]> (o :: hs)) with (o :: <[i := None]> hs). rewrite !open_cons, (IH i H). lia.
  Qed.
  Lemma open_alter (hs : list (option handle)) i g :
    length (filter (λ o, is_Some o) (alter (fmap g) i hs)) = length (filter (λ o, is_Some o) hs).
  Proof using.
    revert i. induction hs as [|o hs IH]; intros [|i]; try done.
    - change (alter (fmap g) 0%nat (o :: hs)) with ((g <$> o) :: hs). rewrite !open_cons. by destruct o.
    - change (alter (fmap g) (S i) (o :: hs)) with (o :: alter (fmap g) i hs). rewrite !open_cons. by rewrite IH.
  Qed.

  Lemma get_handle_good limit pages f0 f hs n order i done : NoDup pages → (i < length pages)%nat →
    good limit pages f0 (World f (Deferred pages hs n order)) done → n < limit →
    ∃ t, get_handle pages hs n order i = Ok t ∧ good limit pages f0 (World f t) done ∧ is_Some (handle_of t i).
  Proof using.
    intros Hnd Hi [(_ & Hlen & Hn & Hopen & Hle & Hod & Hord & Hpos) [Hall Hrest]] Hlt. unfold get_handle.
    cbn [state disk] in *.
    destruct (lookup_lt_is_Some_2 hs i ltac:(lia)) as [[h|] Hh]; rewrite Hh.
    { exists (Deferred pages hs n order). split; [done|]. split; [|cbn; rewrite Hh; by eexists].
      split; [|by split]. cbn. done. }
    destruct (lookup_lt_is_Some_2 pages i Hi) as [p Hp]. rewrite Hp.
    eexists. split; [done|]. split; [|cbn [handle_of]; rewrite list_lookup_insert by lia; by eexists].
    split; cbn [state disk].
    - cbn [tracker_ok]. split; [done|]. split; [by rewrite insert_length|]. split; [rewrite app_length; cbn; lia|].
      split; [|split; [lia|split; [|split]]].
      + cbn [open_files]. rewrite (open_some hs i _ Hh). cbn [open_files] in Hopen. lia.
      + apply list.NoDup_app. split; [done|]. split; [|apply list.NoDup_singleton].
        intros j Hj ->%elem_of_list_singleton. destruct (Hord i Hj) as [h Hh']. by rewrite Hh in Hh'.
      + intros j [Hj| ->%elem_of_list_singleton]%elem_of_app.
        * destruct (Hord j Hj) as [h Hh']. destruct (decide (i = j)) as [->|Ne]; [by rewrite Hh in Hh'|].
          exists h. by rewrite list_lookup_insert_ne.
        * eexists. rewrite list_lookup_insert by lia. done.
      + intros j h Hj. destruct (decide (i = j)) as [->|Ne].
        * rewrite list_lookup_insert in Hj by lia. by injection Hj as <-.
        * rewrite list_lookup_insert_ne in Hj by done. by eapply Hpos.
    - split; [|done]. intros j q Hq. cbn [handle_of]. destruct (decide (i = j)) as [->|Ne].
      + rewrite list_lookup_insert by lia. rewrite Hp in Hq. injection Hq as <-. cbn [mjoin option_join].
        destruct (Hall j p Hp) as (c & Hc & E). cbn [handle_of] in E. rewrite Hh in E. cbn [mjoin option_join] in E.
        exists c. split; [done|]. cbn [h_path h_buf h_pos]. rewrite app_nil_r. repeat split; [done|by left].
      + rewrite list_lookup_insert_ne by done. by apply Hall.
  Qed.

  Lemma close_handle_good limit pages f0 f hs n order j done : NoDup pages →
    good limit pages f0 (World f (Deferred pages hs n (j :: order))) done →
    ∃ hs' f', close_handle hs n j f = (hs', n - 1, f') ∧
      good limit pages f0 (World f' (Deferred pages hs' (n - 1) order)) done.
  Proof using.
    intros Hnd [(_ & Hlen & Hn & Hopen & Hle & Hod & Hord & Hpos) [Hall Hrest]]. cbn [state disk] in *.
    destruct (Hord j ltac:(left)) as [h Hh]. unfold close_handle. rewrite Hh.
    eexists _, _. split; [done|].
    pose proof (lookup_lt_Some _ _ _ Hh) as Hj.
    destruct (lookup_lt_is_Some_2 pages j ltac:(lia)) as [p Hp].
    pose proof (Hall j p Hp) as Hw. cbn [handle_of] in Hw. rewrite Hh in Hw. cbn [mjoin option_join] in Hw.
    destruct (flush_holds h f p _ Hw) as (_ & _ & Hc & Hoth & _).
    apply list.NoDup_cons in Hod as [Hnj Hod].
    split; cbn [state disk].
    - cbn [tracker_ok]. split; [done|]. split; [by rewrite insert_length|]. cbn in Hn. split; [lia|].
      split; [|split; [lia|split; [done|split]]].
      + cbn [open_files] in *. pose proof (open_none hs j h Hh). lia.
      + intros i Hi. destruct (Hord i ltac:(by right)) as [h' Hh']. exists h'.
        rewrite list_lookup_insert_ne; [done|]. intros ->. done.
      + intros i h' Hi. destruct (decide (j = i)) as [->|Ne].
        * by rewrite list_lookup_insert in Hi by lia.
        * rewrite list_lookup_insert_ne in Hi by done. by eapply Hpos.
    - split.
      + intros i q Hq. cbn [handle_of]. destruct (decide (j = i)) as [->|Ne].
        * rewrite list_lookup_insert by lia. rewrite Hp in Hq. injection Hq as <-. done.
        * rewrite list_lookup_insert_ne by done. eapply holds_ext; [|by apply Hall]. symmetry. apply Hoth.
          intros ->. apply Ne. by eapply page_index.
      + intros q Hq. rewrite Hoth; [by apply Hrest|]. intros ->. apply Hq. by eapply elem_of_list_lookup_2.
  Qed.

  Lemma access_good limit pages f0 w i done : 1 <= limit → NoDup pages → (i < length pages)%nat →
    good limit pages f0 w done →
    ∃ w', access limit w i = Ok w' ∧ good limit pages f0 w' done ∧ is_Some (handle_of (state w') i).
  Proof using.
    intros Hl Hnd Hi Hg. destruct w as [f t]. unfold access. cbn [state disk].
    destruct t as [hs|pages' hs n order].
    - pose proof Hg as [[Hlen _] _]. cbn in Hlen. destruct (lookup_lt_is_Some_2 hs i ltac:(lia)) as [h Hh]. rewrite Hh.
      eexists. split; [done|]. split; [done|]. cbn. by rewrite Hh.
    - pose proof Hg as [(-> & Hlen & Hn & _ & Hle & _) _]. cbn [state] in *.
      destruct (Z.ltb_spec n limit) as [H|H].
      + destruct (get_handle_good _ _ _ _ _ _ _ i _ Hnd Hi Hg H) as (t & -> & Ht & Hs). cbn [res_map]. eauto.
      + destruct order as [|j order]; [cbn in Hn; lia|].
        destruct (close_handle_good _ _ _ _ _ _ _ _ _ Hnd Hg) as (hs' & f' & -> & Hg'). cbn [res_map].
        destruct (get_handle_good _ _ _ _ _ _ _ i _ Hnd Hi Hg' ltac:(lia)) as (t & -> & Ht & Hs). cbn [res_map]. eauto.
  Qed.

  Lemma handle_of_alter t i g j : handle_of (alter_handle i g t) j =
    if decide (i = j) then g <$> handle_of t j else handle_of (P:=P) (B:=B) t j.
  Proof using.
    destruct t as [hs|pages hs n order]; cbn [handle_of alter_handle]; destruct (decide (i = j)) as [->|Ne].
    - by rewrite list_lookup_alter.
    - by rewrite list_lookup_alter_ne.
    - rewrite list_lookup_alter. by destruct (hs !! j) as [[h|]|].
    - by rewrite list_lookup_alter_ne.
  Qed.

  Lemma alter_ok limit pages t i g : (∀ h, h_pos (g h) = h_pos h ∨ h_pos (g h) = None) →
    tracker_ok limit pages t → tracker_ok limit pages (alter_handle i g t).
  Proof using.
    intros Hg. destruct t as [hs|pages' hs n order]; cbn [tracker_ok alter_handle].
    - by rewrite alter_length.
    - intros (-> & Hlen & Hn & Hopen & Hle & Hod & Hord & Hpos). split; [done|]. split; [by rewrite alter_length|].
      split; [done|]. split; [|split; [done|split; [done|split]]].
      + cbn [open_files] in *. by rewrite open_alter.
      + intros j Hj. destruct (Hord j Hj) as [h Hh]. destruct (decide (i = j)) as [->|Ne].
        * exists (g h). by rewrite list_lookup_alter, Hh.
        * exists h. by rewrite list_lookup_alter_ne.
      + intros j h Hj. destruct (decide (i = j)) as [->|Ne].
        * rewrite list_lookup_alter in Hj. destruct (hs !! j) as [[h'|]|] eqn:E; try done. cbn in Hj.
          injection Hj as <-. destruct (Hg h') as [->|?]; [by eapply Hpos|done].
        * rewrite list_lookup_alter_ne in Hj by done. by eapply Hpos.
  Qed.

  Lemma handle_pos limit pages f0 w done i p h : good limit pages f0 w done → pages !! i = Some p →
    handle_of (state w) i = Some h → h_path h = p.
  Proof using.
    intros [_ [Hall _]] Hp Hh. destruct (Hall i p Hp) as (c & _ & E). rewrite Hh in E. by destruct E.
  Qed.

  Lemma do_op_good limit pages f0 w o done : 1 <= limit → NoDup pages →
    (∀ i bs, o = Put i bs → (i < length pages)%nat) → good limit pages f0 w done →
    ∃ w', do_op limit w o = Ok w' ∧ good limit pages f0 w' (done ++ [o]).
  Proof using.
    intros Hl Hnd Hin Hg. destruct o as [i bs|i]; cbn [do_op].
    - destruct (access_good limit pages f0 w i done Hl Hnd (Hin i bs eq_refl) Hg) as ([f t] & -> & Hg' & [h Hh]).
      cbn [res_map]. eexists. split; [done|]. cbn [state disk] in *. destruct Hg' as [Hok [Hall Hrest]]. cbn [state disk] in *.
      split; cbn [state disk]; [apply alter_ok; [by left|done]|]. split; [|done].
      intros j p Hp. rewrite handle_of_alter, written_app. cbn [written]. rewrite app_nil_r.
      destruct (decide (i = j)) as [->|Ne].
      + rewrite Hh. cbn. apply put_holds. rewrite <-Hh. by apply Hall.
      + rewrite app_nil_r. by apply Hall.
    - assert (∀ j, written j (done ++ [Spill i]) = written j done) as Hw.
      { intros j. rewrite written_app. cbn. by rewrite app_nil_r. }
      destruct w as [f t]. cbn [state disk]. destruct (handle_of t i) as [h|] eqn:Hh.
      2: { eexists. split; [done|]. destruct Hg as [Hok [Hall Hrest]]. split; [done|]. split; [|done].
           intros j p Hp. rewrite Hw. by apply Hall. }
      destruct (flush h f) as [h' f'] eqn:Hf. eexists. split; [done|].
      destruct Hg as [Hok [Hall Hrest]]. cbn [state disk] in *.
      assert (∃ p, pages !! i = Some p) as [p Hp].
      { apply lookup_lt_is_Some_2. destruct t as [hs|pages' hs n order]; cbn in Hh, Hok.
        - destruct Hok as [<- _]. by eapply lookup_lt_Some.
        - destruct Hok as (_ & <- & _). destruct (hs !! i) eqn:E; [|done]. by eapply lookup_lt_Some. }
      pose proof (Hall i p Hp) as Hi. rewrite Hh in Hi.
      destruct (flush_holds h f p _ Hi) as (_ & H1 & _ & Hoth & Hnone). rewrite Hf in H1, Hoth, Hnone. cbn [fst snd] in *.
      split; cbn [state disk].
      + destruct t as [hs|pages' hs n order]; cbn [handle_of] in Hh.
        * cbn [alter_handle tracker_ok] in *. by rewrite alter_length.
        * apply alter_ok; [|done]. intros h0. right. cbn in Hok. destruct Hok as (_ & _ & _ & _ & _ & _ & _ & Hpos).
          apply Hnone. apply (Hpos i). by destruct (hs !! i) as [[?|]|]; [injection Hh as ->| |].
      + split.
        * intros j q Hq. rewrite handle_of_alter, Hw. destruct (decide (i = j)) as [->|Ne].
          -- rewrite Hh. cbn. rewrite Hp in Hq. by injection Hq as <-.
          -- eapply holds_ext; [|by apply Hall]. symmetry. apply Hoth. intros ->. apply Ne. by eapply page_index.
        * intros q Hq. rewrite Hoth; [by apply Hrest|]. intros ->. apply Hq. by eapply elem_of_list_lookup_2.
  Qed.

  Lemma do_ops_good limit pages f0 w ops done : 1 <= limit → NoDup pages →
    (∀ i bs, Put i bs ∈ ops → (i < length pages)%nat) → good limit pages f0 w done →
    ∃ w', do_ops limit w ops = Ok w' ∧ good limit pages f0 w' (done ++ ops).
  Proof using.
    intros Hl Hnd. revert w done. induction ops as [|o ops IH]; intros w done Hin Hg; cbn [do_ops].
    - exists w. by rewrite app_nil_r.
    - destruct (do_op_good limit pages f0 w o done Hl Hnd) as (w1 & -> & H1); [|done|].
      { intros i bs ->. apply (Hin i bs). left. }
      cbn [res_bind]. destruct (IH w1 (done ++ [o])) as (w2 & -> & H2); [|done|].
      { intros i bs H. apply (Hin i bs). by right. }
      exists w2. by rewrite <-app_assoc in H2.
  Qed.

  (** Closing. *)
  Lemma close_all (l : list (option handle)) (ps : list P) f (want : nat → list B) k :
    length l = length ps → NoDup ps → (∀ i p, ps !! i = Some p → holds f p (mjoin (l !! i)) (want (k + i)%nat)) →
    let f' := fold_left (λ f o, match o with Some h => (flush h f).2 | None => f end) l f in
    (∀ i p, ps !! i = Some p → f' p = Some (want (k + i)%nat)) ∧ (∀ q, q ∉ ps → f' q = f q).
  Proof using.
    revert ps f k. induction l as [|o l IH]; intros [|p ps] f k Hlen Hnd Hall; try done.
    apply list.NoDup_cons in Hnd as [Hp Hnd].
    set (f1 := match o with Some h => (flush h f).2 | None => f end).
    assert (holds f1 p None (want k) ∧ ∀ q, q ≠ p → f1 q = f q) as [H0 Hoth].
    { pose proof (Hall 0%nat p eq_refl) as H. rewrite Nat.add_0_r in H. cbn [lookup list_lookup mjoin option_join] in H.
      unfold f1. destruct o as [h|]; [|done]. destruct (flush_holds h f p _ H) as (_ & _ & Hc & Hq & _). done. }
    destruct (IH ps f1 (S k)) as [A C]; [by injection Hlen|done| |].
    { intros i q Hq. eapply holds_ext; [|replace (S k + i)%nat with (k + S i)%nat by lia; by apply (Hall (S i) q)].
      symmetry. apply Hoth. intros ->. apply Hp. by eapply elem_of_list_lookup_2. }
    cbn [fold_left]. fold f1. cbv zeta in *. split.
    - intros [|i] q Hq.
      + injection Hq as <-. rewrite C by done. rewrite Nat.add_0_r. destruct H0 as (c & -> & ->). done.
      + replace (k + S i)%nat with (S k + i)%nat by lia. by apply A.
    - intros q Hq. apply not_elem_of_cons in Hq as [Hne Hq]. rewrite C by done. by apply Hoth.
  Qed.

  Lemma close_good limit pages f0 w done : NoDup pages → good limit pages f0 w done →
    (∀ i p, pages !! i = Some p → close w p = Some (written i done)) ∧ (∀ q, q ∉ pages → close w q = f0 q).
  Proof using.
    intros Hnd [Hok [Hall Hrest]]. destruct w as [f t]. unfold close. cbn [state disk] in *.
    destruct t as [hs|pages' hs n order]; cbn [handle_of tracker_ok] in *.
    - assert (fold_left (λ f h, (flush h f).2) hs f =
              fold_left (λ f o, match o with Some h => (flush h f).2 | None => f end) (map Some hs) f) as ->.
      { clear. revert f. induction hs as [|h hs IH]; intros f; [done|]. cbn. apply IH. }
      destruct (close_all (map Some hs) pages f (λ i, written i done) 0) as [A C]; [rewrite map_length; tauto|done| |].
      { intros i p Hp. rewrite list_lookup_fmap. pose proof (Hall i p Hp) as H.
        destruct (hs !! i) as [h|] eqn:E; cbn in H |- *; done. }
      split; [intros i p Hp; by apply (A i)|]. intros q Hq. rewrite C by done. by apply Hrest.
    - destruct Hok as (-> & Hlen & _).
      destruct (close_all hs pages f (λ i, written i done) 0) as [A C]; [done|done|done|].
      split; [intros i p Hp; by apply (A i)|]. intros q Hq. rewrite C by done. by apply Hrest.
  Qed.

  Theorem write_files_spec limit pages ops (f0 : files) : 1 <= limit → NoDup pages →
    (∀ i bs, Put i bs ∈ ops → (i < length pages)%nat) →
    ∃ f, write_files limit pages ops f0 = Ok f ∧
      (∀ i p, pages !! i = Some p → f p = Some (written i ops)) ∧ (∀ q, q ∉ pages → f q = f0 q).
  Proof using.
    intros Hl Hnd Hin.
    destruct (do_ops_good limit pages f0 _ ops [] Hl Hnd Hin (new_good limit pages f0 Hl Hnd)) as (w & Hw & Hg).
    unfold write_files. rewrite Hw. cbn [res_map app] in *. exists (close w). split; [done|].
    by eapply close_good.
  Qed.

  Theorem write_files_open limit pages ops (f0 : files) w : 1 <= limit → NoDup pages →
    (∀ i bs, Put i bs ∈ ops → (i < length pages)%nat) → do_ops limit (new_tracker limit pages f0) ops = Ok w →
    open_files (state w) <= limit.
  Proof using.
    intros Hl Hnd Hin Hw.
    destruct (do_ops_good limit pages f0 _ ops [] Hl Hnd Hin (new_good limit pages f0 Hl Hnd)) as (w' & Hw' & [Hok _]).
    rewrite Hw in Hw'. injection Hw' as <-. destruct (state w) as [hs|pages' hs n order]; cbn in Hok |- *.
    - destruct Hok as [-> ?]. done.
    - destruct Hok as (_ & _ & _ & <- & ? & _). done.
  Qed.

  Theorem no_files limit pages i bs ops (f0 : files) : limit <= 0 → (0 < length pages)%nat →
    write_files limit pages (Put i bs :: ops) f0 = Err OtherError.
  Proof using.
    intros Hl Hp. unfold write_files, new_tracker. rewrite (proj2 (Z.leb_gt _ _)) by lia. cbn.
    unfold access. cbn. by rewrite (proj2 (Z.ltb_ge _ _)) by lia.
  Qed.

  (** Outside the pages. *)
  Theorem outside limit pages i bs ops (f0 : files) : 1 <= limit → NoDup pages → (length pages ≤ i)%nat →
    (∀ i bs, Put i bs ∈ ops → (i < length pages)%nat) →
    write_files limit pages (ops ++ [Put i bs]) f0 = Err IndexError.
  Proof using.
    intros Hl Hnd Hi Hin.
    destruct (do_ops_good limit pages f0 _ ops [] Hl Hnd Hin (new_good limit pages f0 Hl Hnd)) as (w & Hw & Hg).
    unfold write_files.
    assert (∀ u (a b : list op), do_ops limit u (a ++ b) = res_bind (do_ops (P:=P) limit u a) (λ v, do_ops limit v b)) as Happ.
    { intros u a b. revert u. induction a as [|o a IH]; intros u; [done|]. cbn. destruct (do_op limit u o); [apply IH|done]. }
    rewrite Happ, Hw. cbn [res_bind do_ops do_op].
    assert (access limit w i = Err IndexError) as ->; [|done].
    destruct w as [f t]. destruct Hg as [Hok Hall]. unfold access. cbn [state disk] in *.
    destruct t as [hs|pages' hs n order]; cbn [tracker_ok] in Hok.
    - rewrite lookup_ge_None_2; [done|]. lia.
    - destruct Hok as (-> & Hlen & Hn & Hrest). destruct (n <? limit) eqn:E.
      + unfold get_handle. rewrite lookup_ge_None_2; [done|]. lia.
      + apply Z.ltb_ge in E. destruct order as [|j order]; [cbn in Hn; lia|].
        unfold close_handle. destruct (hs !! j) as [[h|]|]; cbn [res_map]; unfold get_handle;
          (rewrite lookup_ge_None_2; [done|]); rewrite ?insert_length; lia.
  Qed.
End tracker.
