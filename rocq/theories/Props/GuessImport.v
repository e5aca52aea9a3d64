(** C82: text files imported with guessed types, page by page. *)
From Coq Require Import String.
From Verif.Spec Require Import GuessedPage.
From Verif.Model Require Import GuessImport.
From Verif.Proof Require Import GuessImportProofs.
Local Open Scope string_scope.
Local Open Scope list_scope.
Local Open Scope Z_scope.

(** C82: what a file is read as does not depend on the size of the pages.  False: the
    types are guessed for every page by itself. *)
Theorem C82_refuted fa :
  let lines := λ l : list string, l ≫= λ s, bytes_of s ++ [10] in
  let imported := λ ps l, text_import_with (guess_task fa false SKIP_NONE) (λ _, "h") (λ _, "")
    (tablite_dialect 44 (Some 34) false) (lines ("h" :: l)) None true 0 ps None None in
  imported 2 ["a"; "5"] = Some [("h", [[CStr (bytes_of "a"); CStr (bytes_of "5")]])] ∧
  imported 1 ["a"; "5"] = Some [("h", [[CStr (bytes_of "a")]; [CInt 5]])] ∧
  imported 2 ["5"; "2.5"] = Some [("h", [[CFloat (f_parse fa (bytes_of "5")); CFloat (f_parse fa (bytes_of "2.5"))]])] ∧
  imported 1 ["5"; "2.5"] = Some [("h", [[CInt 5]; [CFloat (f_parse fa (bytes_of "2.5"))]])] ∧
  imported 3 ["a"; ""; ""] = Some [("h", [[CStr (bytes_of "a"); CStr []; CStr []]])] ∧
  imported 1 ["a"; ""; ""] = Some [("h", [[CStr (bytes_of "a")]; [CNone]; [CNone]])].
Proof. vm_compute. repeat split. Qed.
Print Assumptions C82_refuted.

(** With [skip_empty] and guessed types, a page of which every row is skipped makes the
    whole import fail: the page has no type (paging.nim 176). *)
Theorem C82_skipped_page fa checks header_name digits dia text columns (hdr : bool) header_row ps s start limit recs i :
  0 < ps → (∀ i, start = Some i → 0 <= i) → (∀ l, limit = Some l → 0 <= l) → 0 <= header_row →
  parse_csv dia text = (recs, true) → header_row < Z.of_nat (length recs) → columns ≠ Some [] →
  (∀ header, recs !! Z.to_nat header_row = Some header → header ≠ []) →
  let page := page_rows (Z.to_nat ps) i (chosen_rows start limit hdr header_row recs) in
  page ≠ [] → (∀ row, row ∈ page → ¬ kept s row) →
  text_import_with (guess_task fa checks s) header_name digits dia text columns hdr header_row ps start limit = None.
Proof. exact (empty_page_fails fa checks header_name digits dia text columns hdr header_row ps s start limit recs i). Qed.
(** h / 5 / (empty) / 7, a row to a page; without guessing there is a page without rows *)
Example C82_skipped_met fa :
  let text := [104; 10; 53; 10; 10; 55; 10] in
  let dia := tablite_dialect 44 (Some 34) false in
  text_import_with (guess_task fa false SKIP_ALL) (λ _, "h") (λ _, "") dia text None true 0 1 None None = None ∧
  text_import_with (reader_task SKIP_ALL) (λ _, "h") (λ _, "") dia text None true 0 1 None None
    = Some [("h", [[[53]]; []; [[55]]])] ∧
  text_import_with (guess_task fa false SKIP_ALL) (λ _, "h") (λ _, "") dia text None true 0 2 None None
    = Some [("h", [[CInt 5]; [CInt 7]])].
Proof.
  intros text dia. split; [|split; vm_compute; reflexivity].
  apply (C82_skipped_page fa false _ _ dia text None true 0 1 SKIP_ALL None None [[[104]]; [[53]]; [[]]; [[55]]] 1);
    try lia; [done|done|vm_compute; reflexivity|by vm_compute|done|by intros header [= <-]|done|].
  intros row Hr. vm_compute in Hr. apply elem_of_list_singleton in Hr as ->.
  intros (f & Hf & Hn). by apply elem_of_list_singleton in Hf as ->.
Qed.
Print Assumptions C82_skipped_page.

(** The largest true part: columns of one kind come back as what was written in them,
    whatever the size of the pages, the choice of columns and rows; every page must
    keep a row.  (Missing: columns that mix kinds, dates and numbers that can be read
    in two ways, C80.) *)
Theorem C82_partial :
  ∀ fa kinds cells header_name digits dia text columns (hdr : bool) header_row ps s start limit recs header fields names,
  0 < ps → (∀ i, start = Some i → 0 <= i) → (∀ l, limit = Some l → 0 <= l) → 0 <= header_row →
  parse_csv dia text = (recs, true) → recs !! Z.to_nat header_row = Some header →
  field_names header_name digits hdr header = Some fields →
  let imp := default fields columns in
  (∀ c, c ∈ imp → c ∈ fields) → dedup_headers imp = Some names →
  (∀ ix src, fields !! ix = Some src → src ∈ imp →
    Forall2 (field_of (f_parse fa) (kinds ix)) (map (λ row, row !! ix) (wanted_rows s start limit hdr header_row recs)) (cells ix)) →
  (∀ i, let page := page_rows (Z.to_nat ps) i (chosen_rows start limit hdr header_row recs) in
     page ≠ [] → Exists (kept s) page) →
  ∃ tbl, text_import_with (guess_task fa false s) header_name digits dia text columns hdr header_row ps start limit = Some tbl ∧
    tbl.*1 = names ∧ length tbl = length imp ∧
    ∀ i name pages src, tbl !! i = Some (name, pages) → imp !! i = Some src →
      ∃ ix, fields !! ix = Some src ∧ concat pages = cells ix.
Proof. exact guess_import_spec. Qed.
Print Assumptions C82_partial.

(** d,n / 2020-02-29,5 / ,  / 31/01/2021,-7 in pages of one and of two rows *)
Example C82_met fa ps : ps = 1 ∨ ps = 2 →
  let lines := λ l : list string, l ≫= λ s, bytes_of s ++ [10] in
  let text := lines ["d,n"; "2020-02-29,5"; ","; "31/01/2021,-7"] in
  let name := λ f : list chr, if decide (f = [100]) then "d" else "n" in
  ∃ pages1 pages2,
    text_import_with (guess_task fa false SKIP_NONE) name (λ _, "") (tablite_dialect 44 (Some 34) false) text
      (Some ["n"; "d"]) true 0 ps None None = Some [("n", pages1); ("d", pages2)] ∧
    concat pages1 = [CInt 5; CNone; CInt (-7)] ∧
    concat pages2 = [CDate (Ymd 2020 2 29); CNone; CDate (Ymd 2021 1 31)].
Proof.
  intros Hps lines text name.
  destruct (C82_partial fa (λ ix, match ix with O => Dates | _ => Ints end)
    (λ ix, match ix with O => [CDate (Ymd 2020 2 29); CNone; CDate (Ymd 2021 1 31)] | _ => [CInt 5; CNone; CInt (-7)] end)
    name (λ _, "") (tablite_dialect 44 (Some 34) false) text (Some ["n"; "d"]) true 0 ps SKIP_NONE None None
    [[bytes_of "d"; bytes_of "n"]; [bytes_of "2020-02-29"; bytes_of "5"]; [[]; []]; [bytes_of "31/01/2021"; bytes_of "-7"]]
    [bytes_of "d"; bytes_of "n"] ["d"; "n"] ["n"; "d"]) as (tbl & Htbl & Hn & Hl & Hc).
  - lia.
  - done.
  - done.
  - lia.
  - vm_compute. reflexivity.
  - reflexivity.
  - vm_compute. reflexivity.
  - intros c Hcc. apply (bool_decide_unpack (c ∈ ["d"; "n"])).
    repeat (apply elem_of_cons in Hcc as [->|Hcc]; [by vm_compute|]). by apply elem_of_nil in Hcc.
  - vm_compute. reflexivity.
  - intros ix src Hix _. change (Forall2 ?R (map ?f (wanted_rows _ _ _ _ _ _)) ?c) with
      (Forall2 R (map f [[bytes_of "2020-02-29"; bytes_of "5"]; [[]; []]; [bytes_of "31/01/2021"; bytes_of "-7"]]) c).
    destruct ix as [|[|ix]]; [| |done].
    + repeat apply List.Forall2_cons; try apply List.Forall2_nil.
      * right. exists (bytes_of "2020-02-29"). split; [done|]. exists Iso, 45, (Ymd 2020 2 29).
        split. { exists (bytes_of "2020"), (bytes_of "02"), (bytes_of "29"). repeat split; by repeat constructor. }
        split; [by vm_compute|]. split; [split; by left|]. split; [by vm_compute|]. split; [by intros [[|] _]|done].
      * left. split; [done|]. split; [by right|done].
      * right. exists (bytes_of "31/01/2021"). split; [done|]. exists DayFirst, 47, (Ymd 2021 1 31).
        split. { exists (bytes_of "2021"), (bytes_of "01"), (bytes_of "31"). repeat split; by repeat constructor. }
        split; [by vm_compute|]. split; [split; by right|]. split; [by vm_compute|]. split; [by intros (_ & ? & _)|done].
    + repeat apply List.Forall2_cons; try apply List.Forall2_nil.
      * right. exists (bytes_of "5"). split; [done|]. split; [|left; by vm_compute].
        exists 5. split; [|done]. exists (bytes_of "5"), 5. split; [by repeat constructor|]. by left.
      * left. split; [done|]. split; [by right|done].
      * right. exists (bytes_of "-7"). split; [done|]. split; [|left; by vm_compute].
        exists (-7). split; [|done]. exists (bytes_of "7"), 7. split; [by repeat constructor|]. by right.
  - intros i page Hp. destruct page as [|row page]; [done|]. left. done.
  - revert Htbl. generalize (text_import_with (guess_task fa false SKIP_NONE) name (λ _, "") (tablite_dialect 44 (Some 34) false) text
      (Some ["n"; "d"]) true 0 ps None None). intros imported ->.
    destruct tbl as [|[n1 p1] [|[n2 p2] [|]]]; try done. injection Hn as -> ->. exists p1, p2. split; [done|].
    destruct (Hc 0%nat _ _ _ eq_refl eq_refl) as (ix & Hix & ->).
    destruct (Hc 1%nat _ _ _ eq_refl eq_refl) as (ix' & Hix' & ->).
    destruct ix as [|[|]], ix' as [|[|]]; done.
Qed.
