(** From from_file to the native reader of texts. *)
From Coq Require Import String ssreflect.
From Verif.Spec Require Import Base Calls.
From Verif.Model Require Import Calls.
From Verif.Proof Require Import CallsProofs CallsFiles.
Local Open Scope string_scope.
Local Open Scope list_scope.
Local Open Scope Z_scope.

Section text.
  Context {A : Type}.
  Notation V := (value A).
  Notation param := (param A).
  Notation signature := (signature A).
  Notation binding := (binding A).

  Lemma sublist_no_twice (k l : list string) :
    k `sublist_of` l → no_twice l = true → no_twice k = true.
  Proof.
    induction 1 as [|x k l H IH|x k l H IH]; cbn; [done| |].
    - intros [H1 H2]%andb_true_iff. rewrite IH // andb_true_r. apply negb_true_iff in H1.
      apply negb_true_iff, among_false. apply among_false in H1. intros Hx. apply H1.
      eapply elem_of_submseteq; [exact Hx|by apply sublist_submseteq].
    - intros [_ H2]%andb_true_iff. by apply IH.
  Qed.

  Lemma unless_names n (v : V) : (unless_none n v).*1 `sublist_of` [n].
  Proof. destruct v; cbn; first [apply sublist_nil_l | done]. Qed.

  Lemma limit_names (v : V) : (limit_kw v).*1 `sublist_of` ["limit"].
  Proof. destruct v; cbn; try destruct (_ =? _); first [apply sublist_nil_l | done]. Qed.
  Lemma qualifier_names (v : V) : (qualifier_kw v).*1 `sublist_of` ["text_qualifier"; "quoting"].
  Proof. destruct v; cbn; first [done | by apply sublist_cons]. Qed.

  Lemma value_in_limit (v : V) n :
    value_in (limit_kw v) n = if String.eqb "limit" n then given (native_value "limit" v) else None.
  Proof.
    change (native_value "limit" v) with (match v with VInt m => if m =? maxsize then VNone else v | _ => v end).
    destruct v as [| |m| | | | |]; cbn -[String.eqb maxsize]; try destruct (m =? maxsize); cbn -[String.eqb maxsize];
      by destruct (String.eqb "limit" n).
  Qed.
  Lemma value_in_qualifier (v : V) n :
    value_in (qualifier_kw v) n =
    if String.eqb "text_qualifier" n then given v
    else if String.eqb "quoting" n
      then Some (VStr (match v with VNone => "QUOTE_NONE" | _ => "QUOTE_MINIMAL" end)) else None.
  Proof.
    destruct v; cbn -[String.eqb]; destruct (String.eqb "text_qualifier" n) eqn:E; try done;
      apply String.eqb_eq in E as <-; done.
  Qed.

  Ltac look := rewrite !value_in_app !value_in_unless value_in_limit value_in_qualifier; cbn.

  Lemma value_in_skip (v : V) n :
    value_in (skip_kw v) n = if String.eqb "skip_empty" n then Some (or_else (VStr "NONE") v) else None.
  Proof. by destruct v; cbn -[String.eqb]; destruct (String.eqb "skip_empty" n). Qed.

  Definition text_names : list string :=
    ["first_row_has_headers"; "header_row_index"; "columns"; "start"; "limit"; "guess_datatypes";
     "newline"; "delimiter"; "text_qualifier"; "quoting"; "strip_leading_and_tailing_whitespace";
     "skip_empty"; "tqdm"].

  (** The names and values given to nimlite. *)
  Definition text_kws (v1 v2 v3 v4 v5 v6 v7 v8 v9 v10 v11 v12 : V) : list (string * V) :=
    unless_none "first_row_has_headers" v1 ++ unless_none "header_row_index" v2 ++ unless_none "columns" v3
    ++ unless_none "start" v4 ++ limit_kw v5 ++ unless_none "guess_datatypes" v6 ++ unless_none "newline" v7
    ++ unless_none "delimiter" v8 ++ qualifier_kw v9 ++ unless_none "strip_leading_and_tailing_whitespace" v10
    ++ skip_kw v11 ++ [("tqdm", v12)].

  Lemma text_kws_names v1 v2 v3 v4 v5 v6 v7 v8 v9 v10 v11 v12 :
    (text_kws v1 v2 v3 v4 v5 v6 v7 v8 v9 v10 v11 v12).*1 `sublist_of` text_names.
  Proof.
    rewrite /text_kws !fmap_app.
    change text_names with
      (["first_row_has_headers"] ++ ["header_row_index"] ++ ["columns"] ++ ["start"] ++ ["limit"] ++ ["guess_datatypes"]
       ++ ["newline"] ++ ["delimiter"] ++ ["text_qualifier"; "quoting"] ++ ["strip_leading_and_tailing_whitespace"]
       ++ ["skip_empty"] ++ ["tqdm"]).
    repeat first [apply sublist_app | apply unless_names | apply limit_names | apply qualifier_names]; done.
  Qed.

  Lemma text_kws_value v1 v2 v3 v4 v5 v6 v7 v8 v9 v10 v11 v12 n :
    value_in (text_kws v1 v2 v3 v4 v5 v6 v7 v8 v9 v10 v11 v12) n =
    value_in ([("skip_empty", or_else (VStr "NONE") v11); ("tqdm", v12);
               ("quoting", VStr (match v9 with VNone => "QUOTE_NONE" | _ => "QUOTE_MINIMAL" end))]) n ∪
    (if String.eqb "first_row_has_headers" n then given v1
     else if String.eqb "header_row_index" n then given v2
     else if String.eqb "columns" n then given v3
     else if String.eqb "start" n then given v4
     else if String.eqb "limit" n then given (native_value "limit" v5)
     else if String.eqb "guess_datatypes" n then given v6
     else if String.eqb "newline" n then given v7
     else if String.eqb "delimiter" n then given v8
     else if String.eqb "text_qualifier" n then given v9
     else if String.eqb "strip_leading_and_tailing_whitespace" n then given v10
     else None).
  Proof.
    rewrite /text_kws !value_in_app !value_in_unless value_in_limit value_in_qualifier value_in_skip.
    repeat match goal with |- context [String.eqb ?x n] =>
      destruct (String.eqb x n) eqn:?; [match goal with H : String.eqb x n = true |- _ =>
        apply String.eqb_eq in H; subst n end;
        cbn; repeat match goal with |- context [given ?v] => destruct (given v) end; done|] end.
    cbn [value_in]. repeat match goal with H : String.eqb _ n = false |- _ => rewrite H; clear H end. by destruct (String.eqb "tqdm" n).
  Qed.

  Definition text_got (t : V) pid p (enc : V) : list (string * V) :=
    [("T", t); ("pid", VPath pid); ("path", VPath p); ("encoding", enc)].

  Lemma text_bound t pid p (enc : V) v1 v2 v3 v4 v5 v6 v7 v8 v9 v10 v11 v12 :
    ∃ b, bind_args nimlite_text_sig [t; VPath pid; VPath p; enc] (text_kws v1 v2 v3 v4 v5 v6 v7 v8 v9 v10 v11 v12) = Ok b
      ∧ (∀ n v, value_in (text_got t pid p enc) n = Some v → value_of b n = Some v)
      ∧ (∀ q, q ∈ sg_only (nimlite_text_sig (A:=A)) →
           value_of b q.1 = match value_in (text_kws v1 v2 v3 v4 v5 v6 v7 v8 v9 v10 v11 v12) q.1 with
                            | Some v => Some v | None => q.2 end).
  Proof.
    pose proof (text_kws_names v1 v2 v3 v4 v5 v6 v7 v8 v9 v10 v11 v12) as Hs.
    destruct (bind_named (nimlite_text_sig (A:=A)) [t; VPath pid; VPath p; enc]
      (text_kws v1 v2 v3 v4 v5 v6 v7 v8 v9 v10 v11 v12) (text_got t pid p enc) []) as (b & Hb & H1 & H2).
    - reflexivity.
    - eapply sublist_no_twice; [exact Hs|reflexivity].
    - intros k Hk. assert (k ∈ text_names) as Hk2.
      { eapply elem_of_submseteq; [exact Hk|by apply sublist_submseteq]. }
      split.
      + apply among_false. unfold text_names in Hk2. members; subst k; reflexivity.
      + apply among_spec. unfold text_names in Hk2. members; subst k; reflexivity.
    - intros q Hq E. rewrite text_kws_value in E. cbn in Hq. members; subst q;
      first [discriminate E | match goal with |- is_Some (snd (_, Some ?v)) => exact (ex_intro _ v eq_refl) | |- is_Some (snd ?q) => let r := eval cbv in (snd q) in match r with Some ?v => exact (ex_intro _ v eq_refl) end end].
    - reflexivity.
    - exists b. split; [done|]. split; [done|]. intros q Hq. refine (H2 q Hq _).
      cbn in Hq. clear -Hq. members; subst q; reflexivity.
  Qed.

  Ltac setting H q :=
    let E := fresh "E" in
    assert (q ∈ sg_only (nimlite_text_sig (A:=A))) as E
      by (cbn; repeat (first [apply elem_of_list_here | apply elem_of_list_further]));
    let E2 := fresh "E" in pose proof (H q E) as E2; cbn [fst snd req opt optn] in E2; rewrite E2; clear E E2.

  Lemma import_text_ok (ne : string → V → res V) pid (b : binding) p enc :
    arg b "path" = VPath p → ne p (arg b "encoding") = Ok enc →
    ∃ r, import_text ne pid b = Ok r
      ∧ value_of r "pid" = Some (VPath pid)
      ∧ value_of r "path" = Some (VPath p)
      ∧ value_of r "encoding" = Some enc
      ∧ value_of r "quoting"
        = Some (VStr (match arg b "text_qualifier" with VNone => "QUOTE_NONE" | _ => "QUOTE_MINIMAL" end))
      ∧ value_of r "first_row_has_headers" = Some (or_else (VBool true) (arg b "first_row_has_headers"))
      ∧ (∀ n, n ∈ native_names → n ≠ "first_row_has_headers" →
           value_of r n = Some (native_value n (arg b n))).
  Proof.
    intros Hp He. rewrite /import_text Hp He. cbn [res_bind]. unfold same.
    destruct (text_bound (arg b "T") pid p enc (arg b "first_row_has_headers") (arg b "header_row_index")
      (arg b "columns") (arg b "start") (arg b "limit") (arg b "guess_datatypes") (arg b "newline")
      (arg b "delimiter") (arg b "text_qualifier") (arg b "strip_leading_and_tailing_whitespace")
      (arg b "skip_empty") (arg b "tqdm")) as (r & Hr & H1 & H2).
    exists r. split; [exact Hr|]. clear Hr.
    split; [by apply H1|]. split; [by apply H1|]. split; [by apply H1|].
    split.
    { setting H2 (req (A:=A) "quoting").
      by rewrite text_kws_value. }
    split.
    { setting H2 (opt (A:=A) "first_row_has_headers" (VBool true)).
      rewrite text_kws_value. cbn. destruct (arg b "first_row_has_headers"); reflexivity. }
    intros n Hn Hn2. unfold native_names in Hn. members; subst n.
    - setting H2 (optn (A:=A) "columns").
      rewrite text_kws_value. cbn. destruct (arg b "columns"); reflexivity.
    - done.
    - setting H2 (opt (A:=A) "header_row_index" (VInt 0)).
      rewrite text_kws_value. cbn. destruct (arg b "header_row_index"); reflexivity.
    - setting H2 (optn (A:=A) "start").
      rewrite text_kws_value. cbn. destruct (arg b "start"); reflexivity.
    - setting H2 (optn (A:=A) "limit").
      rewrite text_kws_value. cbn -[native_value]. destruct (native_value "limit" (arg b "limit")); reflexivity.
    - setting H2 (opt (A:=A) "guess_datatypes" (VBool false)).
      rewrite text_kws_value. cbn. destruct (arg b "guess_datatypes"); reflexivity.
    - setting H2 (opt (A:=A) "newline" (VStr newline_text)).
      rewrite text_kws_value. cbn. destruct (arg b "newline"); reflexivity.
    - setting H2 (opt (A:=A) "delimiter" (VStr ",")).
      rewrite text_kws_value. cbn. destruct (arg b "delimiter"); reflexivity.
    - setting H2 (opt (A:=A) "text_qualifier" (VStr quote_text)).
      rewrite text_kws_value. cbn. destruct (arg b "text_qualifier"); reflexivity.
    - setting H2 (opt (A:=A) "strip_leading_and_tailing_whitespace" (VBool true)).
      rewrite text_kws_value. cbn. destruct (arg b "strip_leading_and_tailing_whitespace"); reflexivity.
    - setting H2 (opt (A:=A) "skip_empty" (VStr "NONE")).
      rewrite text_kws_value. cbn. destruct (arg b "skip_empty"); reflexivity.
  Qed.

  Lemma nimlite_text_ok ps (b : binding) :
    ∃ r, nimlite_text ps b = Ok r
      ∧ value_of r "pid" = Some (VText (arg b "pid"))
      ∧ value_of r "path" = Some (VText (arg b "path"))
      ∧ value_of r "page_size" = Some (VInt ps)
      ∧ value_of r "encoding" = Some (arg b "encoding")
      ∧ value_of r "quoting" = Some (arg b "quoting")
      ∧ (∀ n, n ∈ native_names → value_of r n = Some (arg b n)).
  Proof.
    unfold nimlite_text, same. unfold native_names.
    set (f := fun n => arg b n).
    change (arg b) with f.
    generalize f. clear f b. intros f.
    assert (∀ n, n ∈ native_names → value_of
      (Bind [("pid", VText (f "pid")); ("path", VText (f "path")); ("encoding", f "encoding"); ("columns", f "columns");
        ("first_row_has_headers", f "first_row_has_headers"); ("header_row_index", f "header_row_index");
        ("start", f "start"); ("limit", f "limit"); ("guess_datatypes", f "guess_datatypes");
        ("newline", f "newline"); ("delimiter", f "delimiter"); ("text_qualifier", f "text_qualifier");
        ("strip_leading_and_tailing_whitespace", f "strip_leading_and_tailing_whitespace");
        ("skip_empty", f "skip_empty"); ("page_size", VInt ps); ("quoting", f "quoting")] [] []) n = Some (f n)) as H.
    { intros n Hn. unfold native_names in Hn. members; subst n; reflexivity. }
    eexists. split; [vm_compute; reflexivity|]. repeat (split; [reflexivity|]). exact H.
  Qed.

  Lemma one_char_spec (v : V) : single v → one_char v = true.
  Proof. by intros [ch ->]. Qed.

  Lemma text_file_ok suffix file_there (ne : string → V → res V) pid ps vs kws (c : binding) p enc :
    bind_args from_file_sig vs kws = Ok c →
    value_of c "path" = Some (VStr p) ∨ value_of c "path" = Some (VPath p) →
    file_there p = true → settings_ok c → (suffix p, "import_utils.text_reader") ∈ read_by →
    ne p (arg c "encoding") = Ok enc →
    (∀ n v, n ∈ ["newline"; "delimiter"; "text_qualifier"] → value_of c n = Some v → single (native_value n v)) →
    ∃ b, from_text_file suffix file_there ne pid ps vs kws = Ok b
      ∧ value_of b "pid" = Some (VText (VPath pid))
      ∧ value_of b "path" = Some (VText (VPath p))
      ∧ value_of b "page_size" = Some (VInt ps)
      ∧ value_of b "encoding" = Some enc
      ∧ value_of b "quoting"
        = Some (VStr (match arg c "text_qualifier" with VNone => "QUOTE_NONE" | _ => "QUOTE_MINIMAL" end))
      ∧ (∀ n v, n ∈ native_names → value_of c n = Some v → value_of b n = Some (native_value n v)).
  Proof.
    intros Hc Hp Hf Hok Hr He Hch.
    destruct (from_file_ok _ _ _ _ _ _ _ Hc Hp Hf Hok Hr) as (s & b & Hb & Hs & HT & Hpath & Hsame & _).
    cbn in Hs. inversion Hs; subst s; clear Hs.
    rewrite /from_text_file Hb. cbn [res_bind fst snd].
    assert (∀ n, n ∈ (params_of (text_reader_sig (A:=A))).*1 → n ≠ "T" → n ≠ "path" →
              ∃ v, value_of c n = Some v ∧ arg b n = v ∧ arg c n = v) as Hv.
    { intros n Hn H1 H2. destruct (Hsame n) as [[v E1] E2]; [|exact Hn|done|].
      - cbn in Hn. members; subst n; try done; cbn; repeat (first [apply elem_of_list_here | apply elem_of_list_further]).
      - exists v. split; [done|]. by rewrite /arg E2 E1. }
    assert (arg b "path" = VPath p) as Hbp.
    { rewrite (from_file_reached _ _ _ _ _ _ _ Hc Hp Hf Hok Hr) in Hb.
      destruct Hpath as [E|E]; [by rewrite /arg E|]. exfalso. clear -Hb E.
      unfold do_call in Hb. cbn [cl_fun cl_pos cl_kw] in Hb.
      match type of Hb with context [entry ?a ?b] =>
        let r := eval vm_compute in (entry a b) in change (entry a b) with r in Hb end.
      cbn [res_map] in Hb.
      match type of Hb with context [bind_args ?a ?b ?c] => destruct (bind_args a b c) as [b'|e] eqn:E2 end; [|discriminate Hb].
      inversion Hb; subst. eapply bind_got in E2 as [named E2]; [|reflexivity].
      rewrite /value_of E2 in E. cbn in E. discriminate E. }
    destruct (Hv "encoding") as (venc & E1 & E2 & E3); [apply among_spec; reflexivity|done..|].
    destruct (import_text_ok ne pid b p enc Hbp) as (r & Hr1 & R1 & R2 & R3 & R4 & R5 & R6).
    { by rewrite E2 -E3. }
    change (String.eqb "import_utils.text_reader" "import_utils.text_reader") with true. cbn iota.
    rewrite Hr1. cbn [res_bind].
    destruct (nimlite_text_ok ps r) as (w & Hw & W1 & W2 & W3 & W4 & W5 & W6).
    rewrite Hw. cbn [res_bind].
    assert (∀ n v, n ∈ native_names → value_of c n = Some v → value_of w n = Some (native_value n v)) as Hall.
    { intros n v Hn Hval. rewrite (W6 n Hn).
      assert (n ∈ (params_of (text_reader_sig (A:=A))).*1 ∧ n ≠ "T" ∧ n ≠ "path") as (Hn1 & Hn2 & Hn3).
      { unfold native_names in Hn. members; subst n; (split; [apply among_spec; reflexivity|done]). }
      destruct (Hv n Hn1 Hn2 Hn3) as (v' & F1 & F2 & F3). assert (v' = v) as Ev by congruence. rewrite Ev in F1 F2 F3. clear Ev Hval v'.
      destruct (String.eqb_spec n "first_row_has_headers") as [->|Hne].
      - rewrite {1}/arg R5 F2. destruct Hok as (_ & _ & hb & Hh). assert (v = VBool hb) as -> by congruence. done.
      - rewrite {1}/arg (R6 n Hn Hne). by rewrite F2. }
    exists w. split.
    - rewrite /native_check.
      assert (∀ n, n ∈ ["newline"; "delimiter"; "text_qualifier"] → one_char (arg w n) = true) as Hone.
      { intros n Hn. destruct (Hv n) as (v & F1 & _); [members; subst n; apply among_spec; reflexivity|
          members; subst n; done|members; subst n; done|].
        assert (n ∈ native_names) as Hn2 by (clear -Hn; members; subst n; apply among_spec; reflexivity).
        rewrite /arg (Hall n v Hn2 F1). by apply one_char_spec, Hch. }
      pose proof (Hone "newline" ltac:(by apply among_spec)) as ->.
      pose proof (Hone "delimiter" ltac:(by apply among_spec)) as ->.
      pose proof (Hone "text_qualifier" ltac:(by apply among_spec)) as ->. done.
    - split; [by rewrite W1 /arg R1|]. split; [by rewrite W2 /arg R2|]. split; [done|].
      split; [by rewrite W4 /arg R3|]. split; [|done].
      destruct (Hv "text_qualifier") as (v & F1 & F2 & F3); [apply among_spec; reflexivity|done..|].
      by rewrite W5 {1}/arg R4 F2 F3.
  Qed.
End text.
