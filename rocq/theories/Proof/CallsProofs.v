(** Proofs about the calls of the methods of a table (Model/Calls.v). *)
From Coq Require Import String ssreflect.
From Verif.Spec Require Import Base Calls.
From Verif.Model Require Import Calls.
Local Open Scope string_scope.
Local Open Scope list_scope.
Local Open Scope Z_scope.

Section calls.
  Context {A : Type}.
  Notation V := (value A).
  Notation param := (param A).
  Notation signature := (signature A).
  Notation binding := (binding A).

  Lemma among_spec n l : among n l = true ↔ n ∈ l.
  Proof.
    rewrite /among existsb_exists. split.
    - intros (x & Hx & E). apply String.eqb_eq in E as ->. by apply elem_of_list_In.
    - intros H. exists n. split; [by apply elem_of_list_In|apply String.eqb_refl].
  Qed.

  Lemma among_false n l : among n l = false ↔ n ∉ l.
  Proof. rewrite -among_spec. by destruct (among n l). Qed.

  Lemma by_position_names (ps : list param) (vs : list V) got rest more :
    by_position ps vs = (got, rest, more) → ps.*1 = got.*1 ++ rest.*1.
  Proof.
    revert vs got rest more. induction ps as [|p ps IH]; intros [|v vs] got rest more H;
      cbn in H; [by inversion H..|].
    destruct (by_position ps vs) as [[g r] m] eqn:E. inversion H; subst.
    cbn. f_equal. by eapply IH.
  Qed.

  Lemma by_name_names (ps : list param) (kws : list (string * V)) l :
    by_name ps kws = Ok l → l.*1 = ps.*1.
  Proof.
    revert l. induction ps as [|[n d] ps IH]; intros l H; cbn in H; [by inversion H|].
    destruct (match value_in kws n with Some v => Some v | None => d end) as [v|]; [|done].
    destruct (by_name ps kws) as [l'|e]; [|done]. inversion H; subst. cbn. f_equal. by apply IH.
  Qed.

  Lemma by_name_err (ps : list param) (kws : list (string * V)) e :
    by_name ps kws = Err e → e = TypeError.
  Proof.
    induction ps as [|[n d] ps IH]; intros H; cbn in H; [done|].
    destruct (match value_in kws n with Some v => Some v | None => d end) as [v|];
      [|by inversion H].
    destruct (by_name ps kws) as [l'|e']; [done|]. inversion H; subst. by apply IH.
  Qed.

  Lemma bind_err (s : signature) vs kws e :
    bind_args s vs kws = Err e → e = TypeError.
  Proof.
    rewrite /bind_args. destruct (by_position _ _) as [[g r] m]. intros H.
    repeat match type of H with (if ?c then _ else _) = _ =>
      destruct c; [by inversion H|] end.
    destruct (by_name _ _) eqn:E; [done|]. inversion H; subst. by eapply by_name_err.
  Qed.

  Lemma no_twice_filter (f : string * V → bool) l :
    no_twice (l.*1) = true → no_twice ((List.filter f l).*1) = true.
  Proof.
    induction l as [|[n v] l IH]; [done|]. cbn. intros [H1 H2]%andb_prop.
    specialize (IH H2). destruct (f (n, v)); cbn; [|done].
    rewrite IH andb_true_r. apply negb_true_iff in H1. rewrite negb_true_iff.
    apply among_false. apply among_false in H1. intros (p & -> & Hp)%elem_of_list_fmap.
    apply elem_of_list_In, List.filter_In in Hp as [Hp _]. apply H1.
    apply elem_of_list_fmap. exists p. split; [done|]. by apply elem_of_list_In.
  Qed.

  Lemma bind_shape (s : signature) vs kws (b : binding) :
    bind_args s vs kws = Ok b →
    (bd_args b).*1 = (params_of s).*1
    ∧ (sg_star s = false → bd_star b = [])
    ∧ (sg_kw s = false → bd_kw b = [])
    ∧ no_twice (bd_kw b).*1 = true
    ∧ (∀ n, n ∈ (bd_kw b).*1 → n ∈ kws.*1).
  Proof.
    rewrite /bind_args. destruct (by_position _ _) as [[g r] m] eqn:E. intros H.
    destruct (no_twice kws.*1) eqn:E1; [|done]. cbn [negb] in H.
    destruct (existsb _ kws.*1); [done|].
    destruct (if sg_star s then false else _); [done|].
    destruct (if sg_kw s then false else _) eqn:E2; [done|].
    destruct (by_name _ _) as [l|e] eqn:E3; [|done]. inversion H; subst; cbn.
    split; [|split; [|split; [|split]]].
    - apply by_position_names in E. apply by_name_names in E3.
      rewrite /params_of !fmap_app E3 fmap_app E. by rewrite app_assoc.
    - by intros ->.
    - intros E4. rewrite E4 in E2. clear -E2. induction kws as [|[n v] kws IH]; [done|].
      cbn in E2 |- *. apply orb_false_iff in E2 as [E5 E6].
      change (@fst string V <$> kws) with (kws.*1) in E6.
      rewrite E5. by apply IH.
    - by apply no_twice_filter.
    - intros n (p & -> & Hp)%elem_of_list_fmap.
      apply elem_of_list_In, List.filter_In in Hp as [Hp _].
      apply elem_of_list_fmap. exists p. split; [done|]. by apply elem_of_list_In.
  Qed.

  Lemma names_cons (l : list (string * V)) n ns :
    l.*1 = n :: ns → ∃ v l', l = (n, v) :: l' ∧ l'.*1 = ns.
  Proof. destruct l as [|[m v] l]; [done|]. intros H. inversion H; subst. by exists v, l. Qed.

  Lemma names_nil (l : list (string * V)) : l.*1 = [] → l = [].
  Proof. destruct l; [done|]. discriminate. Qed.

  Lemma existsb_T (kw : list (string * V)) :
    "T" ∉ kw.*1 → existsb (fun k => among k ["T"]) kw.*1 = false.
  Proof.
    induction kw as [|[n v] kw IH]; [done|]. intros H.
    apply not_elem_of_cons in H as [H1 H2]. specialize (IH H2).
    rewrite fmap_cons. cbn [existsb]. apply orb_false_iff. split; [|exact IH]. apply among_false. intros E%elem_of_list_singleton. by subst.
  Qed.

  Lemma filter_all_kw (kw : list (string * V)) :
    List.filter (fun kv => negb (among kv.1 [])) kw = kw.
  Proof. induction kw as [|x kw IH]; [done|]. cbn. by rewrite IH. Qed.
End calls.

Ltac shape :=
  repeat match goal with
  | H : _.*1 = _ :: _ |- _ =>
      let v := fresh "v" in let l := fresh "l" in
      apply names_cons in H as (v & l & -> & H)
  | H : _.*1 = [] |- _ => apply names_nil in H as ->
  end.

Ltac computed :=
  match goal with |- ∃ b, ?l = Ok b ∧ _ =>
    let r := eval vm_compute in l in
    match r with Ok ?b => exists b; split; [vm_compute; reflexivity|] end end.

Ltac members :=
  repeat match goal with
  | H : _ ∈ _ :: _ |- _ => apply elem_of_cons in H as [H|H]
  | H : _ ∈ [] |- _ => by apply elem_of_nil in H
  end.

Ltac handed :=
  split; [eexists _, _; split; [reflexivity|]; split; [reflexivity|];
          split; [eexists; reflexivity|reflexivity]|];
  split; [let n := fresh "n" in let Hn := fresh "Hn" in intros n Hn; cbn in Hn; members; subst;
          (split; [eexists; reflexivity|reflexivity])|];
  split; [let n := fresh "n" in let w := fresh "w" in let Hn := fresh "Hn" in
            intros n w Hn; cbn in Hn; members;
          repeat match goal with H : (_, _) = (_, _) |- _ =>
            inversion H; subst; clear H end; reflexivity|];
  split; [let p := fresh "p" in let Hp := fresh "Hp" in
            let Hm := fresh "Hm" in let He := fresh "He" in
            intros p Hp Hm He; cbn in Hp; members; subst; first
            [reflexivity
            | exfalso; apply Hm; cbn; repeat (first [apply elem_of_list_here | apply elem_of_list_further]); fail
            | exfalso; apply He; cbn; repeat (first [apply elem_of_list_here | apply elem_of_list_further]); fail]|];
  split; reflexivity.

Section final.
  Context {A : Type}.
  Notation V := (value A).
  Notation signature := (signature A).
  Notation binding := (binding A).

  Lemma any_bound (v : V) kw :
    "T" ∉ kw.*1 → no_twice kw.*1 = true →
    bind_args (Sig [req "T"] false [] true) [v] kw = Ok (Bind [("T", v)] [] kw).
  Proof.
    intros HT Htw. unfold bind_args. cbn [by_position sg_pos sg_only sg_star sg_kw fst snd req app].
    rewrite Htw. cbn [negb]. rewrite fmap_cons fmap_nil. cbn [fst].
    rewrite existsb_T //. cbn. by rewrite filter_all_kw.
  Qed.

  Lemma any_call (f : string) (v : V) kw :
    entry (function_table (A:=A)) f = Some (Sig [req "T"] false [] true) →
    "T" ∉ kw.*1 → no_twice kw.*1 = true →
    do_call (Call f [v] kw) = Ok (f, Bind [("T", v)] [] kw).
  Proof. intros Hf HT Htw. rewrite /do_call. cbn [cl_fun cl_pos cl_kw]. by rewrite Hf any_bound. Qed.

  (** *** sort_index *)
  Lemma bind_got (s : signature) vs kws (b : binding) got rest more :
    by_position (sg_pos s) vs = (got, rest, more) →
    bind_args s vs kws = Ok b → ∃ named, bd_args b = got ++ named.
  Proof.
    rewrite /bind_args. intros -> H.
    repeat match type of H with (if ?c then _ else _) = _ =>
      destruct c; [by inversion H|] end.
    destruct (by_name _ _) as [l|] eqn:E; [|done]. inversion H; subst. by exists l.
  Qed.

  Lemma sort_index_fails vs kws s (c : binding) m :
    method_named "sort_index" = Some m →
    bind_args (me_sig m) vs kws = Ok c →
    value_of c "sort_mode" = Some (VStr s) →
    sort_index_checked (run_method m vs kws) = Err TypeError.
  Proof.
    intros Hm Hc Hs. cbn in Hm. inversion Hm; subst m; clear Hm.
    rewrite /run_method Hc. cbn [res_bind].
    apply bind_shape in Hc as (Ha & Hst & Hkw & Htw & Hsub).
    destruct c as [args star kw]. cbn [bd_args bd_star bd_kw] in *. cbn in Ha. shape.
    cbn in Hs. inversion Hs; subst. cbn [res_bind me_body]. rewrite /do_call.
    cbn [cl_fun cl_pos cl_kw].
    match goal with |- context [entry ?a ?b] =>
      let r := eval vm_compute in (entry a b) in change (entry a b) with r end.
    cbn [res_bind].
    match goal with |- context [bind_args ?a ?b ?c] =>
      destruct (bind_args a b c) as [b'|e] eqn:E end.
    - eapply bind_got in E as [named E]; [|reflexivity].
      rewrite /sort_index_checked /value_of. cbn [res_map res_bind snd]. by rewrite E.
    - apply bind_err in E as ->. done.
  Qed.

  (** *** Joins *)
  Lemma kind_join_ok k vs kws (c : binding) :
    k ∈ join_kinds →
    bind_args kind_join_method_sig vs kws = Ok c →
    ∃ b, kind_join_method (String.append k "_join") vs kws = Ok b
      ∧ hands_over kind_join_method_sig c joins_join_sig b [("kind", VStr k)].
  Proof.
    intros Hk Hc. unfold join_kinds in Hk. rewrite /kind_join_method /call_method.
    assert (∃ m, method_named (String.append k "_join") = Some m ∧ me_sig m = kind_join_method_sig (A:=A)
       ∧ me_body m = kind_join_body (String.append "joins." (String.append k "_join"))) as (m & -> & Hsig & Hb).
    { members; subst k; by eexists. }
    rewrite /run_method Hsig Hc. cbn [res_bind]. rewrite Hb. clear m Hsig Hb.
    apply bind_shape in Hc as (Ha & Hst & Hkw & _).
    destruct c as [args star kw]. cbn [bd_args bd_star bd_kw] in *. cbn in Ha, Hst, Hkw.
    rewrite Hst // Hkw //. shape.
    members; subst k; computed; handed.
  Qed.

  Lemma join_ok k vs kws (c : binding) :
    k ∈ join_kinds →
    bind_args join_method_sig vs kws = Ok c →
    value_of c "kind" = Some (VStr k) →
    ∃ b, join_method vs kws = Ok b
      ∧ hands_over join_method_sig c joins_join_sig b [].
  Proof.
    intros Hk Hc Hv. unfold join_kinds in Hk. rewrite /join_method Hc. cbn [res_bind].
    apply bind_shape in Hc as (Ha & Hst & Hkw & _).
    destruct c as [args star kw]. cbn [bd_args bd_star bd_kw] in *. cbn in Ha, Hst, Hkw.
    rewrite Hst // Hkw //. shape. cbn in Hv. inversion Hv; subst.
    members; subst k; computed; handed.
  Qed.

  Lemma join_kind_unknown vs kws (c : binding) v :
    bind_args join_method_sig vs kws = Ok c →
    value_of c "kind" = Some v → (∀ k, k ∈ join_kinds → v ≠ VStr k) →
    join_method vs kws = Err ValueError.
  Proof.
    intros Hc Hv Hk. rewrite /join_method Hc. cbn [res_bind]. rewrite {1}/arg Hv.
    destruct (method_of_kind v) as [f|] eqn:E; [|done]. exfalso.
    assert (∃ k, k ∈ join_kinds ∧ v = VStr k) as (k & H1 & H2).
    { unfold join_kinds. destruct v as [| | |k| | | |]; cbn in E; try done.
      exists k. split; [|done].
      repeat match type of E with (if String.eqb k ?x then _ else _) = _ =>
        destruct (String.eqb_spec k x) as [->|_];
          [repeat (first [apply elem_of_list_here | apply elem_of_list_further])|] end.
      done. }
    by apply (Hk k).
  Qed.
End final.
