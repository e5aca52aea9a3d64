(** C106: the methods of a table hand every argument to the function they stand for (core.py, joins.py:113-133, from_file,
    import_utils.py:570-631, nimlite.py:73-111).

    [bind_args] are the rules of Python for binding arguments to parameters; [hands_over] and the tables of names are in
    Spec/Calls.v.  The values are any values; objects have the type [A].

    Full claim: every call of a method whose arguments fit its parameters calls the function of that method, with the table first
    and every argument under its own name, and from_file hands its settings to the reader of the file, down to the native reader of
    texts, with the defaults that its documentation gives. *)
From stdpp Require Import strings.
From Coq Require Import String.
From Verif.Spec Require Import Base Calls.
From Verif.Model Require Import Calls.
From Verif.Proof Require Import CallsProofs CallsMethods CallsFiles CallsText.
Local Open Scope string_scope.
Local Open Scope list_scope.
Local Open Scope Z_scope.

(** ** The thirty methods that call a function.  Missing for the full claim: sort_index (refuted below), drop without names (a
    ValueError of its own) and a column named T in [any] and [all] (refuted below). *)
Theorem C106_methods_partial :
  ∀ {A} (m : method A) vs kws (c : binding A),
  m ∈ methods → me_name m ≠ "sort_index" → (me_name m = "drop" → bd_star c ≠ []) → "T" ∉ kws.*1 →
  bind_args (me_sig m) vs kws = Ok c →
  ∃ f s b, run_method m vs kws = Ok (f, b) ∧ (me_name m, f) ∈ implemented_by ∧ entry function_table f = Some s ∧
    hands_over (me_sig m) c s b [].
Proof. intros A m vs kws c. exact (methods_ok m vs kws c). Qed.
Print Assumptions C106_methods_partial.

(** t.merge(new="n", left="l", right="r", criteria=k): the order of the parameters of merge and where differs. *)
Example C106_methods_ex :
  ∃ m c b, method_named (A:=nat) "merge" = Some m ∧ m ∈ methods ∧
    bind_args (me_sig m) [VObj 0%nat; VStr "l"]
      [("new", VStr "n"); ("criteria", VObj 1%nat); ("right", VStr "r")] = Ok c ∧
    run_method m [VObj 0%nat; VStr "l"]
      [("new", VStr "n"); ("criteria", VObj 1%nat); ("right", VStr "r")] = Ok ("merge.where", b) ∧
    bd_args b = [("T", VObj 0%nat); ("criteria", VObj 1%nat); ("left", VStr "l"); ("right", VStr "r"); ("new", VStr "n")].
Proof.
  eexists _, _, _. split; [reflexivity|]. split; [|split; [vm_compute; reflexivity|split; vm_compute; reflexivity]].
  repeat (first [apply elem_of_list_here | apply elem_of_list_further]).
Qed.

(** The method sort_index has no parameter for the mapping: its sort_mode becomes the mapping, and every call with a text for the
    sort_mode, as by default, fails. *)
Theorem C106_sort_index_refuted :
  ∀ {A} vs kws s (c : binding A) m,
  method_named "sort_index" = Some m → bind_args (me_sig m) vs kws = Ok c → value_of c "sort_mode" = Some (VStr s) →
  sort_index_checked (run_method m vs kws) = Err TypeError.
Proof. intros A vs kws s c m. exact (sort_index_fails vs kws s c m). Qed.
Print Assumptions C106_sort_index_refuted.

Example C106_sort_index_ex :
  ∃ m c, method_named (A:=nat) "sort_index" = Some m ∧ bind_args (me_sig m) [VObj 0%nat] [("a", VBool false)] = Ok c ∧
    value_of c "sort_mode" = Some (VStr "excel").
Proof. eexists _, _. split; [reflexivity|]. split; vm_compute; reflexivity. Qed.

(** [any] and [all] take the names of columns as names of arguments: a column named T or self cannot be asked for. *)
Theorem C106_column_names_refuted :
  ∀ {A} (t v : value A),
  call_method "any" [t] [("T", v)] = Err TypeError ∧ call_method "all" [t] [("T", v)] = Err TypeError ∧
  call_method "any" [t] [("self", v)] = Err TypeError ∧ call_method "all" [t] [("self", v)] = Err TypeError ∧
  call_method "any" [t] [("U", v)] = Ok ("redux.filter_any", Bind [("T", t)] [] [("U", v)]).
Proof. intros. repeat split; vm_compute; reflexivity. Qed.
Print Assumptions C106_column_names_refuted.

(** ** Joins.  The four methods reach [joins.join] with their kind; [join] goes through the method of its kind. *)
Theorem C106_joins :
  ∀ {A} k vs kws (c : binding A),
  k ∈ join_kinds → bind_args kind_join_method_sig vs kws = Ok c →
  ∃ b, kind_join_method (String.append k "_join") vs kws = Ok b ∧
    hands_over kind_join_method_sig c joins_join_sig b [("kind", VStr k)].
Proof. intros A k vs kws c. exact (kind_join_ok k vs kws c). Qed.
Print Assumptions C106_joins.

Example C106_joins_ex :
  ∃ b, kind_join_method (A:=nat) "outer_join" [VObj 0%nat; VObj 1%nat; VObj 2%nat]
         [("right_keys", VObj 3%nat); ("merge_keys", VBool true)] = Ok b ∧
    bd_args b = [("T", VObj 0%nat); ("other", VObj 1%nat); ("left_keys", VObj 2%nat); ("right_keys", VObj 3%nat);
                 ("left_columns", VNone); ("right_columns", VNone); ("kind", VStr "outer"); ("merge_keys", VBool true);
                 ("tqdm", VGlobal "tqdm"); ("pbar", VNone)].
Proof. eexists. split; vm_compute; reflexivity. Qed.

Theorem C106_join :
  ∀ {A} k vs kws (c : binding A),
  k ∈ join_kinds → bind_args join_method_sig vs kws = Ok c → value_of c "kind" = Some (VStr k) →
  ∃ b, join_method vs kws = Ok b ∧ hands_over join_method_sig c joins_join_sig b [].
Proof. intros A k vs kws c. exact (join_ok k vs kws c). Qed.
Print Assumptions C106_join.

Theorem C106_join_unknown :
  ∀ {A} vs kws (c : binding A) v,
  bind_args join_method_sig vs kws = Ok c → value_of c "kind" = Some v → (∀ k, k ∈ join_kinds → v ≠ VStr k) →
  join_method vs kws = Err ValueError.
Proof. intros A vs kws c v. exact (join_kind_unknown vs kws c v). Qed.
Print Assumptions C106_join_unknown.

Example C106_join_ex :
  (∃ c, bind_args (join_method_sig (A:=nat)) [VObj 0%nat; VObj 1%nat; VObj 2%nat; VObj 3%nat] [("kind", VStr "cross")] = Ok c ∧
     value_of c "kind" = Some (VStr "cross") ∧ "cross" ∈ join_kinds) ∧
  join_method (A:=nat) [VObj 0%nat; VObj 1%nat; VObj 2%nat; VObj 3%nat] [("kind", VStr "right")] = Err ValueError.
Proof.
  split; [|vm_compute; reflexivity]. eexists. split; [vm_compute; reflexivity|]. split; [vm_compute; reflexivity|].
  repeat (first [apply elem_of_list_here | apply elem_of_list_further]).
Qed.

(** ** The methods that write files call the writer of their ending, and only for paths with it. *)
Theorem C106_writers :
  ∀ {A} suffix directory_there name suf f vs kws (c : binding A) p,
  (name, (suf, f)) ∈ written_by → bind_args writer_sig vs kws = Ok c →
  value_of c "path" = Some (VPath p) → suffix p = suf → directory_there p = true →
  ∃ s b, write_method suffix directory_there name vs kws = Ok (f, b) ∧ entry function_table f = Some s ∧
    hands_over writer_sig c s b [].
Proof. intros A suffix d name suf f vs kws c p. exact (writer_ok suffix d name suf f vs kws c p). Qed.
Print Assumptions C106_writers.

Theorem C106_writers_suffix :
  ∀ {A} suffix directory_there name suf f vs kws (c : binding A) p,
  (name, (suf, f)) ∈ written_by → bind_args writer_sig vs kws = Ok c →
  value_of c "path" = Some (VPath p) → suffix p ≠ suf →
  write_method suffix directory_there name vs kws = Err ValueError.
Proof. intros A suffix d name suf f vs kws c p. exact (writer_wrong suffix d name suf f vs kws c p). Qed.
Print Assumptions C106_writers_suffix.

Example C106_writers_ex :
  (∃ b, write_method (A:=nat) (λ _, ".tsv") (λ _, true) "to_tsv" [VObj 0%nat] [("path", VPath "a.tsv")]
        = Ok ("export_utils.text_writer", b) ∧
    bd_args b = [("table", VObj 0%nat); ("path", VPath "a.tsv"); ("tqdm", VGlobal "tqdm")]) ∧
  write_method (A:=nat) (λ _, ".tsv") (λ _, true) "to_csv" [VObj 0%nat] [("path", VPath "a.tsv")] = Err ValueError.
Proof. split; [eexists; split|]; vm_compute; reflexivity. Qed.

(** ** from_file calls the reader of the ending; every setting that the reader knows has the value given. *)
Theorem C106_from_file :
  ∀ {A} suffix file_there vs kws (c : binding A) p f,
  bind_args from_file_sig vs kws = Ok c →
  value_of c "path" = Some (VStr p) ∨ value_of c "path" = Some (VPath p) →
  file_there p = true → settings_ok c → (suffix p, f) ∈ read_by →
  ∃ s b, from_file suffix file_there vs kws = Ok (f, b)
    ∧ entry function_table f = Some s
    ∧ value_of b "T" = value_of c "cls"
    ∧ (value_of b "path" = Some (VPath p) ∨ value_of b "path" = Some (VText (VPath p)))
    ∧ (∀ n, n ∈ (params_of (from_file_sig (A:=A))).*1 → n ∈ (params_of s).*1 → n ≠ "path" →
         is_Some (value_of c n) ∧ value_of b n = value_of c n)
    ∧ (∀ q, q ∈ tail (params_of s) → q.1 ∉ (params_of (from_file_sig (A:=A))).*1 → value_of b q.1 = q.2).
Proof. intros A suffix ft vs kws c p f. exact (from_file_ok suffix ft vs kws c p f). Qed.
Print Assumptions C106_from_file.

(** And it calls a reader only then. *)
Theorem C106_from_file_only :
  ∀ {A} suffix file_there vs kws f (b : binding A),
  from_file suffix file_there vs kws = Ok (f, b) →
  ∃ c p, bind_args from_file_sig vs kws = Ok c
    ∧ (value_of c "path" = Some (VStr p) ∨ value_of c "path" = Some (VPath p))
    ∧ file_there p = true ∧ settings_ok c ∧ (suffix p, f) ∈ read_by.
Proof. intros A suffix ft vs kws f b. exact (from_file_only suffix ft vs kws f b). Qed.
Print Assumptions C106_from_file_only.

Example C106_from_file_ex :
  ∃ b, from_file (A:=nat) (λ _, ".ods") (λ _, true) [VObj 0%nat; VStr "a.ods"] [("limit", VInt 5); ("sheet", VStr "s")]
       = Ok ("import_utils.ods_reader", b) ∧
    value_of b "limit" = Some (VInt 5) ∧ value_of b "sheet" = Some (VStr "s") ∧ value_of b "start" = Some (VInt 0).
Proof. eexists. split; [vm_compute; reflexivity|]. repeat split; vm_compute; reflexivity. Qed.

(** ** Texts, down to the native reader: every setting that it knows has the value given, where None stands for the default of
    nimlite.py and the limit [sys.maxsize] for none.  Missing for the full claim: the separators that the documentation gives the
    endings, new lines of two characters and the escapes, all refuted below. *)
Theorem C106_text_partial :
  ∀ {A} suffix file_there (native_encoding : string → value A → res (value A)) pid page_size vs kws (c : binding A) p enc,
  bind_args from_file_sig vs kws = Ok c →
  value_of c "path" = Some (VStr p) ∨ value_of c "path" = Some (VPath p) →
  file_there p = true → settings_ok c → (suffix p, "import_utils.text_reader") ∈ read_by →
  native_encoding p (arg c "encoding") = Ok enc →
  (∀ n v, n ∈ ["newline"; "delimiter"; "text_qualifier"] → value_of c n = Some v → single (native_value n v)) →
  ∃ b, from_text_file suffix file_there native_encoding pid page_size vs kws = Ok b
    ∧ value_of b "pid" = Some (VText (VPath pid))
    ∧ value_of b "path" = Some (VText (VPath p))
    ∧ value_of b "page_size" = Some (VInt page_size)
    ∧ value_of b "encoding" = Some enc
    ∧ value_of b "quoting" = Some (VStr (match arg c "text_qualifier" with VNone => "QUOTE_NONE" | _ => "QUOTE_MINIMAL" end))
    ∧ (∀ n v, n ∈ native_names → value_of c n = Some v → value_of b n = Some (native_value n v)).
Proof. intros A suffix ft ne pid ps vs kws c p enc. exact (text_file_ok suffix ft ne pid ps vs kws c p enc). Qed.
Print Assumptions C106_text_partial.

Example C106_text_ex :
  let kws := [("delimiter", VStr ";"); ("text_qualifier", VStr "'"); ("limit", VInt 7)] in
  ∃ c b, bind_args (from_file_sig (A:=nat)) [VObj 0%nat; VStr "a.txt"] kws = Ok c ∧
    settings_ok c ∧ single (native_value "newline" (arg c "newline")) ∧
    from_text_file (A:=nat) (λ _, ".txt") (λ _, true) (λ _ _, Ok (VStr "ENC_UTF8")) "pid" 100 [VObj 0%nat; VStr "a.txt"] kws = Ok b ∧
    value_of b "delimiter" = Some (VStr ";") ∧ value_of b "quoting" = Some (VStr "QUOTE_MINIMAL") ∧ value_of b "limit" = Some (VInt 7).
Proof.
  eexists _, _. split; [vm_compute; reflexivity|]. split.
  { split; [eexists _, 0|split; [eexists _, 7|eexists]]; repeat split; vm_compute; try reflexivity; discriminate. }
  split; [eexists; vm_compute; reflexivity|]. split; [vm_compute; reflexivity|]. repeat split; vm_compute; reflexivity.
Qed.

(** core.py:131-136 documents a separator for each ending; without one given, every file is read with a comma. *)
Theorem C106_delimiter_refuted :
  ∀ {A} (cls : value A) suf enc,
  suf = ".tsv" ∨ suf = ".txt" →
  ∃ b d, from_text_file (λ _, suf) (λ _, true) (λ _ _, Ok enc) "pid" 100 [cls; VStr "a"] [] = Ok b ∧
    documented_delimiter suf = Some d ∧ value_of b "delimiter" = Some (VStr ",") ∧ d ≠ ",".
Proof.
  intros A cls suf enc [->| ->]; eexists _, _; (split; [vm_compute; reflexivity|]);
    (split; [reflexivity|]); (split; [vm_compute; reflexivity|discriminate]).
Qed.
Print Assumptions C106_delimiter_refuted.

(** A new line of two characters, carriage return and line feed, cannot be given. *)
Theorem C106_newline_refuted :
  ∀ {A} (cls : value A) enc,
  let crlf := String (Ascii.ascii_of_nat 13) newline_text in
  from_text_file (λ _, ".csv") (λ _, true) (λ _ _, Ok enc) "pid" 100 [cls; VStr "a.csv"] [("newline", VStr crlf)] = Err OtherError.
Proof. intros. vm_compute. reflexivity. Qed.
Print Assumptions C106_newline_refuted.

(** The texts that open and close an escape are dropped on the way. *)
Theorem C106_escapes_refuted :
  ∀ {A} (cls v w : value A) enc,
  ∃ b, from_text_file (λ _, ".csv") (λ _, true) (λ _ _, Ok enc) "pid" 100 [cls; VStr "a.csv"]
         [("text_escape_openings", v); ("text_escape_closures", w)] = Ok b ∧
    from_text_file (λ _, ".csv") (λ _, true) (λ _ _, Ok enc) "pid" 100 [cls; VStr "a.csv"] [] = Ok b.
Proof. intros. eexists. split; vm_compute; reflexivity. Qed.
Print Assumptions C106_escapes_refuted.
