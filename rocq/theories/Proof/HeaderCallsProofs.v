(** The arguments of head and get_headers reach the readers of headers. *)
From Coq Require Import String ssreflect.
From Verif.Spec Require Import Base Calls HeaderCalls.
From Verif.Model Require Import Calls HeaderCalls.
From Verif.Proof Require Import CallsProofs CallsFiles.
Local Open Scope string_scope.
Local Open Scope list_scope.
Local Open Scope Z_scope.

Section headers.
  Context {A : Type}.
  Notation V := (value A).
  Notation binding := (binding A).
  Implicit Types (suffix : string → string) (file_there : string → bool).

  Lemma header_entry suf f : (suf, f) ∈ shown_by → entry header_readers suf = Some f.
  Proof. unfold shown_by. intros H. members; inversion H; subst; reflexivity. Qed.

  Lemma entry_header suf f : entry header_readers suf = Some f → (suf, f) ∈ shown_by.
  Proof.
    unfold header_readers, shown_by. cbn [entry]. intros H.
    repeat match type of H with (if String.eqb ?x suf then _ else _) = _ =>
      destruct (String.eqb_spec x suf) as [<-|_];
        [inversion H; subst; repeat (first [apply elem_of_list_here | apply elem_of_list_further])|]
      end.
    done.
  Qed.

  Lemma get_headers_ok suffix file_there vs kws (c : binding) p f :
    bind_args headers_sig vs kws = Ok c →
    value_of c "path" = Some (VStr p) ∨ value_of c "path" = Some (VPath p) →
    file_there p = true → (∃ v, value_of c "delimiter" = Some v ∧ none_or_text v) → (suffix p, f) ∈ shown_by →
    ∃ b, get_headers suffix file_there vs kws = Ok (f, b) ∧ value_of b "path" = Some (VPath p) ∧
      ∀ n, n ∈ header_settings → is_Some (value_of c n) ∧ value_of b n = value_of c n.
  Proof.
    intros Hc Hp Hf (v & Hd & Hv) Hr%header_entry. rewrite /get_headers Hc. cbn [res_bind].
    assert (path_of (arg c "path") = Ok p) as ->. { rewrite /arg. by destruct Hp as [-> | ->]. }
    cbn [res_bind]. rewrite Hf. cbn [negb].
    assert (delimiter_type_ok (arg c "delimiter") = true) as ->.
    { rewrite /arg Hd. by destruct Hv as [->|[s ->]]. }
    cbn [negb]. rewrite Hr.
    apply bind_shape in Hc as (Ha & Hst & Hkw & _).
    destruct c as [args star kw]. cbn [bd_args bd_star bd_kw] in *. cbn in Ha. shape.
    eexists. split; [vm_compute; reflexivity|]. split; [vm_compute; reflexivity|].
    intros n Hn. unfold header_settings in Hn. members; subst n; (split; [eexists|]; vm_compute; reflexivity).
  Qed.

  Lemma get_headers_only suffix file_there vs kws f (b : binding) :
    get_headers suffix file_there vs kws = Ok (f, b) →
    ∃ c p, bind_args headers_sig vs kws = Ok c ∧
      (value_of c "path" = Some (VStr p) ∨ value_of c "path" = Some (VPath p)) ∧
      file_there p = true ∧ none_or_text (arg c "delimiter") ∧ (suffix p, f) ∈ shown_by.
  Proof.
    rewrite /get_headers. destruct (bind_args headers_sig vs kws) as [c|] eqn:Hc; [|done]. cbn [res_bind].
    destruct (path_of (arg c "path")) as [p|] eqn:Hp; [|done]. cbn [res_bind].
    destruct (file_there p) eqn:Hf; [|done]. cbn [negb].
    destruct (delimiter_type_ok (arg c "delimiter")) eqn:Hd; [|done]. cbn [negb].
    destruct (entry header_readers (suffix p)) as [g|] eqn:He; [|done].
    intros H. exists c, p. split; [done|]. split; [|split; [done|split]].
    - unfold arg in Hp. destruct (value_of c "path") as [[]|]; try discriminate Hp; injection Hp as ->; [by left|by right].
    - destruct (arg c "delimiter"); try discriminate Hd; [by left|right; by eexists].
    - destruct (bind_args header_reader_sig _ _); [|done]. cbn [res_map] in H. injection H as -> _. by apply entry_header.
  Qed.

  Lemma get_headers_ending suffix file_there vs kws (c : binding) p :
    bind_args headers_sig vs kws = Ok c →
    value_of c "path" = Some (VStr p) ∨ value_of c "path" = Some (VPath p) →
    file_there p = true → suffix p ∉ shown_by.*1 →
    get_headers suffix file_there vs kws = Err TypeError.
  Proof.
    intros Hc Hp Hf Hs. rewrite /get_headers Hc. cbn [res_bind].
    assert (path_of (arg c "path") = Ok p) as ->. { rewrite /arg. by destruct Hp as [-> | ->]. }
    cbn [res_bind]. rewrite Hf. cbn [negb].
    destruct (delimiter_type_ok _); [|done]. cbn [negb].
    destruct (entry header_readers (suffix p)) as [f|] eqn:E; [|done].
    exfalso. apply Hs. apply elem_of_list_fmap. exists (suffix p, f). split; [done|]. by apply entry_header.
  Qed.

  Lemma head_ok suffix file_there vs kws (c : binding) p f :
    bind_args head_sig vs kws = Ok c →
    value_of c "path" = Some (VStr p) ∨ value_of c "path" = Some (VPath p) →
    file_there p = true → (∃ v, value_of c "delimiter" = Some v ∧ none_or_text v) → (suffix p, f) ∈ shown_by →
    ∃ b, head suffix file_there vs kws = Ok (f, b) ∧ value_of b "path" = Some (VPath p) ∧
      is_Some (value_of c "linecount") ∧ value_of b "linecount" = value_of c "linecount" ∧
      value_of b "delimiter" = value_of c "delimiter" ∧
      value_of b "header_row_index" = Some (VInt 0) ∧ value_of b "text_qualifier" = Some VNone.
  Proof.
    intros Hc Hp Hf (v & Hd & Hv) Hr. rewrite /head Hc. cbn [res_bind].
    assert (∃ w, value_of c "linecount" = Some w) as [w Hw].
    { apply bind_shape in Hc as (Ha & _). destruct c as [args star kw]. cbn [bd_args] in *. cbn in Ha. shape.
      eexists. vm_compute. reflexivity. }
    assert (arg c "linecount" = w) as Ew by by rewrite /arg Hw.
    assert (arg c "delimiter" = v) as Ev by by rewrite /arg Hd.
    assert (∃ q, arg c "path" = q ∧ (q = VStr p ∨ q = VPath p)) as (q & Eq & Hq).
    { rewrite /arg. destruct Hp as [-> | ->]; eexists; (split; [done|]); by [left|right]. }
    rewrite /same Ew Ev Eq.
    destruct (get_headers_ok suffix file_there [q] [("linecount", w); ("delimiter", v)]
      (Bind [("path", q); ("delimiter", v); ("header_row_index", VInt 0); ("text_qualifier", VNone); ("linecount", w)] [] [])
      p f) as (b & Hb & H1 & H2).
    - vm_compute. reflexivity.
    - destruct Hq as [-> | ->]; [left|right]; vm_compute; reflexivity.
    - done.
    - exists v. split; [vm_compute; reflexivity|done].
    - done.
    - exists b. split; [done|]. split; [done|]. rewrite Hw Hd. split; [by eexists|].
      assert (∀ n, n ∈ header_settings → value_of b n = value_of (Bind [("path", q); ("delimiter", v);
        ("header_row_index", VInt 0); ("text_qualifier", VNone); ("linecount", w)] [] []) n) as H3 by (intros n Hn; by apply H2).
      split_and!; (rewrite H3; [unfold header_settings; repeat (first [apply elem_of_list_here | apply elem_of_list_further])|vm_compute; reflexivity]).
  Qed.

  Lemma single_one (v : V) : single v → one_char v = true.
  Proof. by intros [ch ->]. Qed.

  Lemma text_headers_ok (encoding_of : string → res V) (detect : string → V → V → res (option string)) p (c : binding) enc (d : V) :
    (∃ v w x, value_of c "header_row_index" = Some v ∧ value_of c "linecount" = Some w ∧ value_of c "text_qualifier" = Some x ∧
       (x = VNone ∨ single x) ∧
       (value_of c "delimiter" = Some d ∧ d ≠ VNone ∨
        value_of c "delimiter" = Some VNone ∧ ∃ s, detect p v w = Ok (Some s) ∧ d = VStr s)) →
    single d → encoding_of p = Ok enc →
    ∃ b, text_headers encoding_of detect p c = Ok (Some b) ∧
      value_of b "path" = Some (VText (VText (VPath p))) ∧ value_of b "encoding" = Some enc ∧
      value_of b "delimiter" = Some d ∧ value_of b "newline" = Some (VStr newline_text) ∧
      value_of b "strip_leading_and_tailing_whitespace" = Some (VBool true) ∧
      value_of b "header_row_index" = value_of c "header_row_index" ∧
      value_of b "linecount" = value_of c "linecount" ∧
      value_of b "text_qualifier" = Some (or_else (VStr quote_text) (arg c "text_qualifier")) ∧
      value_of b "quoting" = Some (VStr (match arg c "text_qualifier" with VNone => "QUOTE_NONE" | _ => "QUOTE_MINIMAL" end)).
  Proof.
    intros (v & w & x & Hv & Hw & Hx & Sx & Hd) [ch ->] He.
    rewrite Hv Hw /text_headers /text_headers_try.
    assert (delimiter_used detect p c = Ok (Some (VStr (String ch "")))) as ->.
    { rewrite /delimiter_used /arg Hv Hw. destruct Hd as [[-> _]|(-> & s & E & F)]; [done|]. rewrite E. injection F as <-. done. }
    cbn [res_bind]. rewrite He. cbn [res_bind]. rewrite /same /arg Hv Hw Hx.
    destruct Sx as [->|[ch' ->]].
    - eexists. split; [vm_compute; reflexivity|]. repeat split; vm_compute; reflexivity.
    - eexists. split; [vm_compute; reflexivity|]. repeat split; vm_compute; reflexivity.
  Qed.

  Lemma text_headers_none (encoding_of : string → res V) (detect : string → V → V → res (option string)) p (c : binding) :
    arg c "delimiter" = VNone → detect p (arg c "header_row_index") (arg c "linecount") = Ok None →
    text_headers encoding_of detect p c = Ok None.
  Proof. intros H1 H2. rewrite /text_headers /text_headers_try /delimiter_used H1 H2. done. Qed.
End headers.
