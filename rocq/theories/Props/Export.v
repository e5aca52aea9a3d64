(** C85: tables written to text files and read again. *)
From Coq Require Import String.
From Verif.Spec Require Import Export.
From Verif.Proof Require Import ExportProofs.
Local Open Scope string_scope.
Local Open Scope list_scope.
Local Open Scope Z_scope.

(** C85: a table written by [to_csv], [to_tsv] or [to_text] and read by [from_file] is the
    same table.  False without further options; false with the options for quotes and the
    delimiter too.

    The comma in a text splits it (no quotes are read without [text_qualifier]); a .tsv file
    is one column (without [delimiter] it is the comma). *)
Theorem C85_defaults_refuted fa fshow :
  let t : table string cell unit := [("a", [MkPage [CStr (bytes_of "x,y")] []]); ("b", [MkPage [CInt 5] []])] in
  let again := λ suffix, d ← delimiter_of suffix;
    match text_writer fshow d t with
    | Ok text => imported <$> from_file fa true None None false (λ _, "") 100 text
    | Err _ => None
    end in
  again ".csv" = Some [("a", [CStr (bytes_of """x")]); ("b", [CStr (bytes_of "y""")])] ∧
  again ".tsv" = Some [("ab", [CStr (bytes_of "x")])].
Proof. vm_compute. repeat split. Qed.
Print Assumptions C85_defaults_refuted.

(** With quotes and the right delimiter: a line feed becomes a backslash and an n, a tab a
    backslash and a t; a backslash is dropped; tabs in names are dropped. *)
Theorem C85_texts_refuted fa fshow :
  let again := λ t : table string cell unit,
    match text_writer fshow 44 t with
    | Ok text => imported <$> from_file fa false (Some 34) (Some 44) false (λ _, "") 100 text
    | Err _ => None
    end in
  again [("a", [MkPage [CStr [97; 10; 98]; CStr [97; 9; 98]; CStr [97; 92; 98]] []])]
    = Some [("a", [CStr [97; 92; 110; 98]; CStr [97; 92; 116; 98]; CStr [97; 98]])] ∧
  again [(string_of [97; 9; 98], [MkPage [CStr [97]] []])] = Some [("ab", [CStr [97]])].
Proof. vm_compute. repeat split. Qed.
Print Assumptions C85_texts_refuted.

(** With guessed types: the float 1.234 is the int 1234, texts of numbers are numbers, the
    int 20200131 is a date, the words null and None are None. *)
Theorem C85_values_refuted fa fshow x :
  fshow x = bytes_of "1.234" →
  let again := λ l : list cell,
    match text_writer fshow 44 ([("a", [MkPage l []])] : table string cell unit) with
    | Ok text => imported <$> from_file fa true (Some 34) (Some 44) false (λ _, "") 100 text
    | Err _ => None
    end in
  again [CFloat x] = Some [("a", [CInt 1234])] ∧
  again [CStr (bytes_of "007")] = Some [("a", [CInt 7])] ∧
  again [CInt 20200131] = Some [("a", [CDate (Ymd 2020 1 31)])] ∧
  again [CStr (bytes_of "None")] = Some [("a", [CNone])].
Proof.
  intros Hx again. split; [|vm_compute; repeat split].
  unfold again. change (text_writer fshow 44 _) with (Ok (writerow 44 [bytes_of "a"] ++ concat [writerow 44 [fshow x]])).
  rewrite Hx. vm_compute. reflexivity.
Qed.
Print Assumptions C85_values_refuted.

(** Without guessing (the largest true part): the names and the texts of the values come back,
    short columns filled up with empty texts, if names and values come back by themselves
    (Spec/Export.v). *)
Theorem C85_texts_partial {T} fshow fa (t : table string cell T) quotes strip d digits ps :
  d = 44 ∨ d = 9 ∨ d = 124 → 0 < ps →
  let v := contents t in
  let alone := bool_decide (length v = 1%nat) in
  v ≠ [] → NoDup v.*1 →
  (∀ name, name ∈ v.*1 → name_comes_back quotes strip d alone (bytes_of name)) →
  (∀ c x, c ∈ v → x ∈ filled (nrows v) c.2 → value_comes_back fshow quotes strip d alone x) →
  ∃ text tbl, text_writer fshow d t = Ok text ∧
    from_file fa false (if quotes then Some 34 else None) (Some d) strip digits ps text = Some tbl ∧
    imported tbl = map (λ c, (c.1, map (λ x, CStr (txt fshow x)) (filled (nrows v) c.2))) v.
Proof. exact (texts_again fshow fa t quotes strip d digits ps). Qed.
Print Assumptions C85_texts_partial.

(** With guessed types: the values themselves come back if every column is of one kind whose
    values are told by their texts, whatever the size of the pages. *)
Theorem C85_values_partial {T} fshow fa (t : table string cell T) quotes strip d digits ps :
  d = 44 ∨ d = 9 ∨ d = 124 → 0 < ps →
  let v := contents t in
  let alone := bool_decide (length v = 1%nat) in
  v ≠ [] → NoDup v.*1 →
  (∀ name, name ∈ v.*1 → name_comes_back quotes strip d alone (bytes_of name)) →
  (∀ c x, c ∈ v → x ∈ filled (nrows v) c.2 → value_comes_back fshow quotes strip d alone x) →
  ∀ kinds, Forall2 (λ k c, Forall (told (f_parse fa) fshow k) (filled (nrows v) c.2)) kinds v →
  ∃ text tbl, text_writer fshow d t = Ok text ∧
    from_file fa true (if quotes then Some 34 else None) (Some d) strip digits ps text = Some tbl ∧
    imported tbl = map (λ c, (c.1, filled (nrows v) c.2)) v.
Proof. exact (values_again fshow fa t quotes strip d digits ps). Qed.
Print Assumptions C85_values_partial.

(** two columns, one shorter, with the defaults for quotes, in pages of one row *)
Example C85_met fa :
  let t : table string cell unit := [("n", [MkPage [CInt (-5); CNone; CInt 123] []]); ("day", [MkPage [CDate (Ymd 2020 2 29)] []])] in
  let fshow := λ _, [] in
  ∃ text tbl, text_writer fshow 9 t = Ok text ∧
    from_file fa true None (Some 9) false (λ _, "") 1 text = Some tbl ∧
    imported tbl = [("n", [CInt (-5); CNone; CInt 123]); ("day", [CDate (Ymd 2020 2 29); CNone; CNone])].
Proof.
  intros t fshow.
  destruct (C85_values_partial fshow fa t false false 9 (λ _, "") 1 ltac:(by right; left) ltac:(done) ltac:(done)
    ltac:(apply (bool_decide_unpack _); vm_compute; exact I)) with (kinds := [Ints; Dates]) as (text & tbl & H1 & H2 & H3).
  - intros name Hin. cbn in Hin. split; [apply simple_comes; [by right; left|..]|].
    all: apply elem_of_cons in Hin as [->|Hin%elem_of_list_singleton]; [|subst name].
    all: try (apply (bool_decide_unpack _); vm_compute; exact I); try done.
  - intros c x Hc Hx. cbn in Hc. apply elem_of_cons in Hc as [->|Hc%elem_of_list_singleton]; [|subst c]; cbn in Hx;
      repeat (apply elem_of_cons in Hx as [->|Hx]; [done|]); by apply elem_of_nil in Hx.
  - constructor; [|constructor; [|constructor]]; repeat apply List.Forall_cons; try apply List.Forall_nil.
    + right. exists (-5). split; [done|lia].
    + by left.
    + right. exists 123. split; [done|lia].
    + right. by exists (Ymd 2020 2 29).
    + by left.
    + by left.
  - by exists text, tbl.
Qed.
