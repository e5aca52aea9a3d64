(** Writers of files, from_file and the native reader of texts get what the
    caller has given. *)
From Coq Require Import String ssreflect.
From Verif.Spec Require Import Base Calls.
From Verif.Model Require Import Calls.
From Verif.Proof Require Import CallsProofs.
Local Open Scope string_scope.
Local Open Scope list_scope.
Local Open Scope Z_scope.

Section files.
  Context {A : Type}.
  Notation V := (value A).
  Notation param := (param A).
  Notation signature := (signature A).
  Notation binding := (binding A).
  Implicit Types (suffix : string → string) (file_there directory_there : string → bool).

  Lemma writer_ok suffix directory_there name suf f vs kws (c : binding) p :
    (name, (suf, f)) ∈ written_by →
    bind_args writer_sig vs kws = Ok c →
    value_of c "path" = Some (VPath p) → suffix p = suf → directory_there p = true →
    ∃ s b, write_method suffix directory_there name vs kws = Ok (f, b)
      ∧ entry function_table f = Some s
      ∧ hands_over writer_sig c s b [].
  Proof.
    intros Hw Hc Hp Hs Hd. unfold written_by in Hw.
    assert (run_writer suffix directory_there (suf, f) vs kws
            = do_call (Call f [arg c "self"; VPath p] [])) as Hrun.
    { rewrite /run_writer Hc. cbn [res_bind]. rewrite {1}/arg Hp /path_suffix_check Hs.
      cbn [fst]. rewrite String.eqb_refl Hd. cbn [res_bind snd]. by rewrite {2}/arg Hp. }
    assert (write_method suffix directory_there name vs kws
            = run_writer suffix directory_there (suf, f) vs kws) as ->.
    { unfold write_method. members; inversion Hw; subst; reflexivity. }
    rewrite Hrun. clear Hrun.
    apply bind_shape in Hc as (Ha & Hst & Hkw & _).
    destruct c as [args star kw]. cbn [bd_args bd_star bd_kw] in *. cbn in Ha, Hst, Hkw.
    rewrite Hst // Hkw //. shape. cbn in Hp. inversion Hp; subst.
    members; inversion Hw; subst; (eexists _, _; split; [reflexivity|]; split; [reflexivity|handed]).
  Qed.

  Lemma writer_wrong suffix directory_there name suf f vs kws (c : binding) p :
    (name, (suf, f)) ∈ written_by →
    bind_args writer_sig vs kws = Ok c →
    value_of c "path" = Some (VPath p) → suffix p ≠ suf →
    write_method suffix directory_there name vs kws = Err ValueError.
  Proof.
    intros Hw Hc Hp Hs. unfold written_by in Hw.
    assert (run_writer suffix directory_there (suf, f) vs kws = Err ValueError) as Hrun.
    { rewrite /run_writer Hc. cbn [res_bind]. rewrite {1}/arg Hp /path_suffix_check.
      cbn [fst]. by apply String.eqb_neq in Hs as ->. }
    unfold write_method. members; inversion Hw; subst; exact Hrun.
  Qed.

  (** *** from_file *)
  Lemma reader_entry suf f : (suf, f) ∈ read_by → entry file_readers suf = Some f.
  Proof. unfold read_by. intros H. members; inversion H; subst; reflexivity. Qed.

  Lemma entry_reader suf f : entry file_readers suf = Some f → (suf, f) ∈ read_by.
  Proof.
    unfold file_readers, read_by. cbn [entry]. intros H.
    repeat match type of H with (if String.eqb ?x suf then _ else _) = _ =>
      destruct (String.eqb_spec x suf) as [<-|_];
        [inversion H; subst; repeat (first [apply elem_of_list_here | apply elem_of_list_further])|]
      end.
    done.
  Qed.

  Lemma from_file_reached suffix file_there vs kws (c : binding) p f :
    bind_args from_file_sig vs kws = Ok c →
    value_of c "path" = Some (VStr p) ∨ value_of c "path" = Some (VPath p) →
    file_there p = true → settings_ok c → (suffix p, f) ∈ read_by →
    from_file suffix file_there vs kws
    = do_call (Call f (arg c "cls" :: reader_args f p c) [same c "tqdm"]).
  Proof.
    intros Hc Hp Hf ((v1 & n1 & H1 & H2 & H3) & (v2 & n2 & H4 & H5 & H6) & b & H7) Hr.
    rewrite /from_file Hc. cbn [res_bind].
    assert (path_of (arg c "path") = Ok p) as ->.
    { rewrite /arg. by destruct Hp as [-> | ->]. }
    cbn [res_bind]. rewrite Hf. cbn [negb].
    assert (start_ok (arg c "start") = true) as ->.
    { rewrite /arg H1 /start_ok H2. apply andb_true_iff. split; apply Z.leb_le; lia. }
    assert (limit_ok (arg c "limit") = true) as ->.
    { rewrite /arg H4 /limit_ok H5. apply andb_true_iff. split; [apply Z.ltb_lt|apply Z.leb_le]; lia. }
    cbn [negb]. rewrite {1}/arg H7. by rewrite (reader_entry _ _ Hr).
  Qed.

  Lemma from_file_ok suffix file_there vs kws (c : binding) p f :
    bind_args from_file_sig vs kws = Ok c →
    value_of c "path" = Some (VStr p) ∨ value_of c "path" = Some (VPath p) →
    file_there p = true → settings_ok c → (suffix p, f) ∈ read_by →
    ∃ s b, from_file suffix file_there vs kws = Ok (f, b)
      ∧ entry function_table f = Some s
      ∧ value_of b "T" = value_of c "cls"
      ∧ (value_of b "path" = Some (VPath p) ∨ value_of b "path" = Some (VText (VPath p)))
      ∧ (∀ n, n ∈ (params_of (from_file_sig (A:=A))).*1 → n ∈ (params_of s).*1 → n ≠ "path" →
           is_Some (value_of c n) ∧ value_of b n = value_of c n)
      ∧ (∀ q, q ∈ tail (params_of s) → q.1 ∉ (params_of (from_file_sig (A:=A))).*1 →
           value_of b q.1 = q.2).
  Proof.
    intros Hc Hp Hf Hok Hr. rewrite (from_file_reached _ _ _ _ _ _ _ Hc Hp Hf Hok Hr).
    apply bind_shape in Hc as (Ha & Hst & Hkw & _).
    destruct c as [args star kw]. cbn [bd_args bd_star bd_kw] in *. cbn in Ha, Hst, Hkw.
    rewrite Hst // Hkw //. shape. clear Hok Hp Hf Hst Hkw.
    assert (f ∈ ["import_utils.excel_reader"; "import_utils.from_html"; "import_utils.from_hdf5";
                 "import_utils.text_reader"; "import_utils.ods_reader"]) as Hf.
    { unfold read_by in Hr. members; inversion Hr; subst;
        repeat (first [apply elem_of_list_here | apply elem_of_list_further]). }
    clear Hr. members; subst f.
    all: match goal with |- ∃ s b, ?l = Ok (?f, b) ∧ _ =>
      let r := eval vm_compute in l in
      let s := eval vm_compute in (entry (@function_table A) f) in
      match r with Ok (_, ?b) => match s with Some ?s =>
        exists s, b; split; [vm_compute; reflexivity|] end end end.
    all: split; [vm_compute; reflexivity|]; split; [reflexivity|];
         split; [first [left; reflexivity | right; reflexivity]|].
    all: split.
    all: try (intros n Hn1 Hn2 Hn3; cbn in Hn2; members; subst n;
      first [done | split; [eexists; reflexivity|reflexivity]
            | exfalso; cbn in Hn1; members; discriminate]).
    all: intros q Hq Hq2; cbn in Hq; members; subst q;
      first [reflexivity | exfalso; apply Hq2; cbn;
        repeat (first [apply elem_of_list_here | apply elem_of_list_further]); fail].
  Qed.

  Lemma from_file_only suffix file_there vs kws f (b : binding) :
    from_file suffix file_there vs kws = Ok (f, b) →
    ∃ c p, bind_args from_file_sig vs kws = Ok c
      ∧ (value_of c "path" = Some (VStr p) ∨ value_of c "path" = Some (VPath p))
      ∧ file_there p = true ∧ settings_ok c ∧ (suffix p, f) ∈ read_by.
  Proof.
    rewrite /from_file. destruct (bind_args _ _ _) as [c|e] eqn:Hc; [|done]. cbn [res_bind].
    destruct (path_of _) as [p|e] eqn:Hp; [|done]. cbn [res_bind].
    destruct (file_there p) eqn:Hf; [|done]. cbn [negb].
    destruct (start_ok _) eqn:Hs; [|done]. cbn [negb].
    destruct (limit_ok _) eqn:Hl; [|done]. cbn [negb].
    destruct (arg c "first_row_has_headers") as [|hb| | | | | |] eqn:Hh; try done.
    destruct (entry _ _) as [g|] eqn:Hr; [|done]. intros H. exists c, p.
    split; [done|]. split.
    { rewrite /arg in Hp. destruct (value_of c "path") as [v|]; [|done].
      destruct v; inversion Hp; subst; auto. }
    split; [done|]. split.
    - split; [|split].
      + rewrite /arg in Hs. destruct (value_of c "start") as [v|]; [|done].
        rewrite /start_ok in Hs. destruct (int_of v) as [n|] eqn:E; [|done].
        apply andb_true_iff in Hs as [H1%Z.leb_le H2%Z.leb_le]. by exists v, n.
      + rewrite /arg in Hl. destruct (value_of c "limit") as [v|]; [|done].
        rewrite /limit_ok in Hl. destruct (int_of v) as [n|] eqn:E; [|done].
        apply andb_true_iff in Hl as [H1%Z.ltb_lt H2%Z.leb_le]. by exists v, n.
      + rewrite /arg in Hh. destruct (value_of c "first_row_has_headers") as [v|]; [|done].
        subst v. by exists hb.
    - rewrite /do_call in H. cbn [cl_fun] in H. destruct (entry function_table g) as [s|]; [|discriminate H].
      destruct (bind_args s _ _) as [b0|e]; [|discriminate H]. cbn [res_map] in H. inversion H; subst. by apply entry_reader.
  Qed.

  (** *** The native reader of texts *)
  Lemma value_in_app (l1 l2 : list (string * V)) n :
    value_in (l1 ++ l2) n = match value_in l1 n with Some v => Some v | None => value_in l2 n end.
  Proof. induction l1 as [|[m v] l1 IH]; [done|]. cbn. by destruct (String.eqb m n). Qed.

  Definition given (v : V) : option V := match v with VNone => None | _ => Some v end.

  Lemma value_in_unless m (v : V) n :
    value_in (unless_none m v) n = if String.eqb m n then given v else None.
  Proof. destruct v; cbn; by destruct (String.eqb m n). Qed.

  Lemma given_or (v d : V) : match given v with Some w => Some w | None => Some d end = Some (or_else d v).
  Proof. by destruct v. Qed.

  Lemma by_name_ok (ps : list param) (kws : list (string * V)) :
    (∀ p, p ∈ ps → value_in kws p.1 = None → is_Some p.2) → no_twice ps.*1 = true →
    ∃ l, by_name ps kws = Ok l
      ∧ ∀ p, p ∈ ps → value_in l p.1 = match value_in kws p.1 with Some v => Some v | None => p.2 end.
  Proof.
    induction ps as [|[n d] ps IH]; intros Hd Ht.
    { exists []. split; [done|]. intros p Hp. by apply elem_of_nil in Hp. }
    cbn in Ht. apply andb_true_iff in Ht as [Ht1 Ht2]. apply negb_true_iff, among_false in Ht1.
    destruct IH as (l & Hl & Hv).
    { intros p Hp. apply Hd. by apply elem_of_list_further. }
    { done. }
    assert (∃ v, match value_in kws n with Some v => Some v | None => d end = Some v) as [v Hn].
    { destruct (value_in kws n) eqn:E; [by eexists|].
      destruct (Hd (n, d)) as [w Hw]; [by apply elem_of_list_here|done|]. cbn in Hw. by exists w. }
    exists ((n, v) :: l). split; [cbn; by rewrite Hn Hl|].
    intros p [->|Hp]%elem_of_cons; cbn.
    - by rewrite String.eqb_refl Hn.
    - destruct (String.eqb_spec n p.1) as [E|_]; [|by apply Hv].
      exfalso. apply Ht1. rewrite E. by apply (elem_of_list_fmap_1 fst).
  Qed.

  Lemma no_twice_NoDup l : NoDup l → no_twice l = true.
  Proof.
    induction 1 as [|n l Hn _ IH]; [done|]. cbn. rewrite IH andb_true_r negb_true_iff. by apply among_false.
  Qed.

  Lemma bind_named (s : signature) vs kws got rest :
    by_position (sg_pos s) vs = (got, rest, []) →
    no_twice kws.*1 = true →
    (∀ k, k ∈ kws.*1 → k ∉ got.*1 ∧ k ∈ (rest ++ sg_only s).*1) →
    (∀ p, p ∈ rest ++ sg_only s → value_in kws p.1 = None → is_Some p.2) →
    no_twice (rest ++ sg_only s).*1 = true →
    ∃ b, bind_args s vs kws = Ok b
      ∧ (∀ n v, value_in got n = Some v → value_of b n = Some v)
      ∧ (∀ p, p ∈ rest ++ sg_only s → value_in got p.1 = None →
           value_of b p.1 = match value_in kws p.1 with Some v => Some v | None => p.2 end).
  Proof.
    intros Hp Ht Hk Hd Ht2. destruct (by_name_ok _ kws Hd Ht2) as (l & Hl & Hv).
    rewrite /bind_args Hp Ht. cbn [negb].
    assert (existsb (λ k, among k got.*1) kws.*1 = false) as ->.
    { apply not_true_iff_false. intros (x & Hx & E)%existsb_exists.
      apply among_spec in E. apply elem_of_list_In, Hk in Hx as [Hx _]. done. }
    assert ((if sg_star s then false else false) = false) as -> by by destruct (sg_star s).
    assert ((if sg_kw s then false
             else existsb (λ k, negb (among k (rest ++ sg_only s).*1)) kws.*1) = false) as ->.
    { destruct (sg_kw s); [done|]. apply not_true_iff_false. intros (x & Hx & E)%existsb_exists.
      apply elem_of_list_In, Hk in Hx as [_ Hx]. apply negb_true_iff, among_false in E. done. }
    rewrite Hl. eexists. split; [reflexivity|]. rewrite /value_of. cbn [bd_args]. split.
    - intros n v Hn. by rewrite value_in_app Hn.
    - intros p Hp1 Hp2. rewrite value_in_app Hp2. by apply Hv.
  Qed.
End files.
