(** Rows of pages: picked by position, one by one, and by a mask over the files of a column. *)
From Verif.Spec Require Import Pick.
From Verif.Model Require Import NpySlice.
From Verif.Proof Require Import PicklePageProofs NpyProofs NpySliceProofs NpySliceFinal NpyFileProofs.
Local Open Scope Z_scope.

(** ** C99: taking rows of pages gives the elements that stand there *)

(** false in general: texts picked out of a page of objects become an array, in which a text
    loses the NULs at its end *)
Theorem C99_slice_refuted checks widen :
  ∃ p idx cs p', page_ok p ∧ picks (elements widen p) idx cs
    ∧ page_slice checks p idx = Ok p' ∧ elements widen p' ≠ cs.
Proof.
  exists (PObject [2] [CStr [97; 0]; CNone] [(KStr, 1); (KNone, 1)]), [0], [CStr [97; 0]], (PUnicode 1 [97; 0] 2).
  split; [|split; [|split; [by destruct checks; vm_compute|by vm_compute]]].
  - split; [done|]. split; [apply (bool_decide_eq_true_1 _); by vm_compute|]. split; [by intros []|]. right.
    split; [|split; [repeat constructor; done|done]].
    intros (_ & k & H1 & _ & H). apply list.Forall_cons in H as [_ H]. apply list.Forall_cons in H as [H _].
    by apply H1.
  - repeat constructor; done.
Qed.
Print Assumptions C99_slice_refuted.

(** ... and where bounds are checked an empty text among them is an error *)
Theorem C99_empty_refuted widen :
  ∃ p idx cs, page_ok p ∧ picks (elements widen p) idx cs ∧ page_slice true p idx = Err IndexError.
Proof.
  exists (PObject [2] [CStr []; CNone] [(KStr, 1); (KNone, 1)]), [0], [CStr []].
  split; [|split; [|by vm_compute]].
  - split; [done|]. split; [apply (bool_decide_eq_true_1 _); by vm_compute|]. split; [by intros []|]. right.
    split; [|split; [repeat constructor; done|done]].
    intros (_ & k & H1 & _ & H). apply list.Forall_cons in H as [_ H]. apply list.Forall_cons in H as [H _].
    by apply H1.
  - repeat constructor; done.
Qed.
Print Assumptions C99_empty_refuted.

(** Any page: the new page has exactly the elements at the positions, in their order and as often as
    asked for; its length and its kinds are counted right.
    Missing for the full statement: from pages of objects, texts that start or end with NUL and, where
    bounds are checked, empty texts. *)
Theorem C99_slice_partial widen checks p idx cs :
  sized p → picks (elements widen p) idx cs →
  (object_page p → Forall (array_text checks) cs) →
  ∃ p', page_slice checks p idx = Ok p' ∧ elements widen p' = cs ∧ page_len p' = zlen idx
    ∧ ∀ k, dget_or (page_types p') k 0 = kind_count cs k.
Proof.
  intros H1 H2 H3. destruct (slice_ok widen checks p idx cs H1 H2 H3) as (p' & E & (He & Hl & Hk) & _).
  exists p'. rewrite <- (picks_length _ _ _ H2). done.
Qed.
Print Assumptions C99_slice_partial.

(** A position outside the page is an error. *)
Theorem C99_slice_range widen checks p idx i :
  sized p → i ∈ idx → ¬ (0 <= i < zlen (elements widen p)) → page_slice checks p idx = Err IndexError.
Proof. exact (slice_range widen checks p idx i). Qed.
Print Assumptions C99_slice_range.

(** Saved and read again the new page still has these elements.
    Missing: as above, and fractions of seconds (C74). *)
Theorem C99_saved_partial widen checks scalar p idx cs :
  page_ok p → picks (elements widen p) idx cs → zlen idx < 2 ^ 31 → idx ≠ [] →
  (object_page p → Forall plain_cell cs) →
  (object_page p → checks = true → Forall (λ c, ¬ empty_text c) cs) → Forall whole_seconds cs →
  ∃ p' p'', page_slice checks p idx = Ok p' ∧ readNumpy checks scalar (save p') = Ok p'' ∧ elements widen p'' = cs.
Proof. exact (slice_saved widen checks scalar p idx cs). Qed.
Print Assumptions C99_saved_partial.

(** objects of several kinds; those picked are all dates and become a page of dates *)
Example C99_example :
  let p := PObject [4] [CDate (Ymd 2024 2 29); CStr [104; 195; 169]; CNone; CDate (Ymd 1969 7 20)]
             [(KDate, 2); (KStr, 1); (KNone, 1)] in
  let cs := [CDate (Ymd 1969 7 20); CDate (Ymd 2024 2 29); CDate (Ymd 1969 7 20)] in
  page_ok p ∧ sized p ∧ picks (elements (λ b, b) p) [3; 0; 3] cs ∧ Forall (array_text true) cs
  ∧ Forall plain_cell cs ∧ Forall (λ c, ¬ empty_text c) cs ∧ Forall whole_seconds cs
  ∧ page_slice true p [3; 0; 3] = Ok (PDate [Ymd 1969 7 20; Ymd 2024 2 29; Ymd 1969 7 20])
  ∧ page_slice true p [1; 2] = Ok (PObject [2] [CStr [104; 195; 169]; CNone] [(KStr, 1); (KNone, 1)])
  ∧ page_slice true (PUnicode 3 [104; 233; 0; 8364; 0; 0; 97; 0; 98] 3) [2; 2; 0]
    = Ok (PUnicode 3 [97; 0; 98; 97; 0; 98; 104; 233; 0] 3)
  ∧ page_slice true (PInt 8 [5; 6; 7]) [1; 3] = Err IndexError.
Proof.
  split.
  { split; [done|]. split; [apply (bool_decide_eq_true_1 _); by vm_compute|]. split; [by intros []|]. right.
    split; [|split; [repeat constructor; vm_compute; congruence|done]].
    intros (_ & k & H1 & _ & H). do 2 apply list.Forall_cons in H as [_ H]. apply list.Forall_cons in H as [H _].
    by apply H1. }
  split; [done|]. split; [repeat constructor; done|].
  split; [repeat constructor|]. split; [repeat constructor; vm_compute; congruence|].
  split; [repeat constructor; discriminate|]. split; [repeat constructor|]. split_and!; by vm_compute.
Qed.

(** One element.  False in general: of a page of texts it ends before the first NUL, in the
    iteration it does not. *)
Theorem C99_item_refuted widen :
  ∃ p i c, page_ok p ∧ at_position (elements widen p) i c ∧ ∃ c', getItemAsObject widen p i = Ok c' ∧ c' ≠ c.
Proof.
  exists (PUnicode 1 [97; 0; 98] 3), 0, (CStr [97; 0; 98]). split; [|split; [done|]].
  - split; [done|]. split; [done|]. exists [[97; 0; 98]]. split; [done|]. split; [done|].
    repeat constructor; vm_compute; congruence || (intros [? ?]; congruence) || lia.
  - exists (CStr [97]). split; [by vm_compute|]. congruence.
Qed.
Print Assumptions C99_item_refuted.

(** Missing: texts with NULs in pages of texts. *)
Theorem C99_item_partial widen p i c :
  sized p → at_position (elements widen p) i c → object_page p ∨ without_nul c →
  getItemAsObject widen p i = Ok c.
Proof. exact (item_ok widen p i c). Qed.
Print Assumptions C99_item_partial.

Theorem C99_item_range widen p i :
  sized p → ¬ (0 <= i < zlen (elements widen p)) → getItemAsObject widen p i = Err IndexError.
Proof. exact (item_range widen p i). Qed.
Print Assumptions C99_item_range.

(** Over the files of a column the element is that of all their elements in a row; a position before
    the first or behind the last is an error.  Missing: texts with NULs. *)
Theorem C99_files_partial checks scalar widen files pages i c :
  Forall2 (file_of checks scalar) files pages →
  at_position (concat (map (elements widen) pages)) i c → without_nul c →
  getItemOfFiles checks scalar widen files i = Ok c.
Proof.
  intros H1 H2 H3. apply (items_ok checks scalar widen files pages 0 i c H1); [apply H2| |done].
  by rewrite Z.sub_0_r.
Qed.
Print Assumptions C99_files_partial.

Theorem C99_files_range checks scalar widen files pages i :
  Forall2 (file_of checks scalar) files pages →
  ¬ (0 <= i < zlen (concat (map (elements widen) pages))) →
  getItemOfFiles checks scalar widen files i = Err IndexError.
Proof. intros H1 H2. apply (items_range checks scalar widen files pages 0 i H1). lia. Qed.
Print Assumptions C99_files_range.

(** The filter's new pages of a column: for a mask that begins at row [offset] the passing pages have
    the elements beside a true bit, the failing pages those beside a false bit, none of them is empty
    and no row is lost or moved.
    Missing: texts in pages of objects as above. *)
Theorem C99_dump_partial checks scalar widen files pages offset mask :
  Forall2 (file_of checks scalar) files pages →
  Forall (λ p, object_page p → Forall (array_text checks) (elements widen p)) pages →
  0 <= offset → mask ≠ [] → offset + zlen mask <= zlen (concat (map (elements widen) pages)) →
  let column := drop (Z.to_nat offset) (concat (map (elements widen) pages)) in
  ∃ pass fail, dumpPage checks scalar offset mask files = Ok (pass, fail)
    ∧ masked true mask column (concat (map (elements widen) pass))
    ∧ masked false mask column (concat (map (elements widen) fail))
    ∧ Forall (λ p, page_len p ≠ 0) (pass ++ fail).
Proof. exact (dumpPage_ok checks scalar widen files pages offset mask). Qed.
Print Assumptions C99_dump_partial.

(** two files; the mask starts in the first and ends in the second *)
Example C99_example_files :
  let scalar := λ _ _ : list Z, Err OtherError in
  let p := PInt 8 [5; 6; 7] in
  let q := PObject [3] [CInt 8; CNone; CInt 9] [(KInt, 2); (KNone, 1)] in
  let files := [save p; save q] in
  Forall2 (file_of true scalar) files [p; q]
  ∧ Forall (λ p, object_page p → Forall (array_text true) (elements (λ b, b) p)) [p; q]
  ∧ getItemOfFiles true scalar (λ b, b) files 4 = Ok CNone
  ∧ getItemOfFiles true scalar (λ b, b) files 6 = Err IndexError
  ∧ getItemOfFiles true scalar (λ b, b) files (-1) = Err IndexError
  ∧ dumpPage true scalar 1 [true; false; true; false] files
    = Ok ([PInt 8 [6]; PInt 8 [8]], [PInt 8 [7]; PObject [1] [CNone] [(KNone, 1)]]).
Proof.
  split; [|split; [|split_and!; by vm_compute]].
  - constructor; [split; by vm_compute|]. constructor; [split; by vm_compute|constructor].
  - repeat constructor; by intros [].
Qed.
