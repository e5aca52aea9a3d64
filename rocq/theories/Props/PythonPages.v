(** Pages of objects written by Python and read by nimlite. *)
From Coq Require Import Ascii String.
From Verif.Spec Require Import PythonPage.
From Verif.Model Require Import PicklePage.
From Verif.Proof Require Import PythonPageProofs.
Local Open Scope Z_scope.

(** ** C118: nimlite reads the pages of objects that Python writes *)

(** The page of two dates (the class of the second from the memo), a text and the same text again, in one batch *)
Definition C118_cells : list cell := [CDate (Ymd 2020 2 29); CDate (Ymd 2021 1 1); CStr [97]; CStr [97]].
Definition C118_page : list Z :=
  array_start 0 [op "K"; 4] ++
  ([op "("] ++
   (((global "datetime" "date" ++ [op "q"; 14]) ++ [op "C"; 4] ++ [7; 228; 2; 29] ++ [op "q"; 15] ++ [133] ++ [op "q"; 16] ++ [op "R"] ++ [op "q"; 17]) ++
    ([op "h"; 14] ++ [op "C"; 4] ++ [7; 229; 1; 1] ++ [op "q"; 18] ++ [133] ++ [op "q"; 19] ++ [op "R"] ++ [op "q"; 20]) ++
    (op "X" :: [1; 0; 0; 0] ++ [97] ++ [op "q"; 21]) ++ [op "h"; 21] ++ []) ++
   [op "e"] ++ []) ++
  [op "t"] ++ [op "q"; 22] ++ [op "b"; op "."].

(** false in general: the fraction of a second of a time grows 256 times *)
Theorem C118_time_refuted checks scalar :
  ∃ cs bs p, python_page cs bs ∧ Forall cell_ok cs ∧
    readPickledPage (nim_decoders checks scalar) bs = Ok p ∧ ¬ page_of cs p.
Proof.
  exists [CTime 500000],
    (array_start 0 [op "K"; 1] ++
     (((global "datetime" "time" ++ [op "q"; 14]) ++ [op "C"; 6] ++ [0; 0; 0; 7; 161; 32] ++ [op "q"; 15] ++ [133] ++ [op "q"; 16] ++ [op "R"] ++ [op "q"; 17]) ++
      [op "a"] ++ []) ++ [op "t"] ++ [op "q"; 18] ++ [op "b"; op "."]),
    ([1], [CTime 128000000], [(KTime, 1)]).
  split.
  { refine (PyPage [_] _ _ _ _ (BININT1 1 [1] _) (BatchesOne _ _ _ _ [] [] _ (PyTime _ 500000 _ _ _ (TimeBody _ 0 0 0 500000 [7; 161; 32] _ _ _ _ _ _)
      (PyMade _ _ _ _ [0; 0; 0; 7; 161; 32] _ _ _ _ _ (Named _ _ _ _ (Put1 _ [14] _)) (Put1 _ [15] _) (Put1 _ [16] _) (Put1 _ [17] _))) (BatchesNil _)) (Put1 _ [18] _));
      try lia; (split; [done|split; [repeat constructor; cbn; lia|done]]). }
  split; [repeat constructor; vm_compute; congruence|]. split; [by vm_compute|].
  intros (_ & H & _). vm_compute in H. congruence.
Qed.
Print Assumptions C118_time_refuted.

(** Whatever is taken from the memo and however the elements are batched: without fractions of seconds and within the ranges of
    [cell_ok] the page is read with its shape, its elements and the number of each kind.  Missing for the full statement: fractions
    of seconds, wider integers (C118_wide). *)
Theorem C118_page_partial checks scalar cs bs :
  python_page cs bs → Forall cell_ok cs → Forall whole_seconds cs →
  ∃ p, readPickledPage (nim_decoders checks scalar) bs = Ok p ∧ page_of cs p.
Proof. exact (python_nim checks scalar cs bs). Qed.
Print Assumptions C118_page_partial.

(** What is read with fractions of seconds: each of them 256 times; if that exceeds a second in a date with a time, an error where
    ranges are checked *)
Theorem C118_fractions checks scalar cs bs :
  python_page cs bs → Forall cell_ok cs →
  Forall (λ c, checks = true → is_datetime c → fraction c <= 3906) cs →
  ∃ p, readPickledPage (nim_decoders checks scalar) bs = Ok p ∧ page_of (map stretched cs) p.
Proof. exact (python_nim_fractions checks scalar cs bs). Qed.
Print Assumptions C118_fractions.

Theorem C118_raises scalar cs bs :
  python_page cs bs → Forall cell_ok cs → ¬ Forall (λ c, is_datetime c → fraction c <= 3906) cs →
  readPickledPage (nim_decoders true scalar) bs = Err OtherError.
Proof. exact (python_nim_raises scalar cs bs). Qed.
Print Assumptions C118_raises.

(** half a second after midnight *)
Example C118_raises_case :
  python_page [CDateTime (Ymd 2020 2 29) 500000]
    (array_start 0 [op "K"; 1] ++
     (((global "datetime" "datetime" ++ [op "q"; 14]) ++ [op "C"; 10] ++ [7; 228; 2; 29; 0; 0; 0; 7; 161; 32] ++ [op "q"; 15] ++ [133] ++ [op "q"; 16] ++ [op "R"] ++ [op "q"; 17]) ++
      [op "a"] ++ []) ++ [op "t"] ++ [op "q"; 18] ++ [op "b"; op "."]) ∧
  Forall cell_ok [CDateTime (Ymd 2020 2 29) 500000] ∧
  ¬ Forall (λ c, is_datetime c → fraction c <= 3906) [CDateTime (Ymd 2020 2 29) 500000].
Proof.
  split; [|split; [repeat constructor; vm_compute; congruence|intros H; apply list.Forall_cons in H as [H _]; by specialize (H eq_refl)]].
  refine (PyPage [_] _ _ _ _ (BININT1 1 [1] _) (BatchesOne _ _ _ _ [] [] _
    (PyDatetime _ (Ymd 2020 2 29) 500000 _ _ _ _ (DateBody _ [7; 228] _) (TimeBody _ 0 0 0 500000 [7; 161; 32] _ _ _ _ _ _)
      (PyMade _ _ _ _ [7; 228; 2; 29; 0; 0; 0; 7; 161; 32] _ _ _ _ _ (Named _ _ _ _ (Put1 _ [14] _)) (Put1 _ [15] _) (Put1 _ [16] _) (Put1 _ [17] _))) (BatchesNil _)) (Put1 _ [18] _));
    try lia; (split; [done|split; [repeat constructor; cbn; lia|done]]).
Qed.

(** With microseconds decoded as CPython does, every page is *)
Theorem C118_decoded scalar cs bs :
  python_page cs bs → Forall cell_ok cs →
  ∃ p, readPickledPage (cpython_decoders scalar) bs = Ok p ∧ page_of cs p.
Proof. exact (python_cpython scalar cs bs). Qed.
Print Assumptions C118_decoded.

Example C118_case : python_page C118_cells C118_page ∧ Forall cell_ok C118_cells ∧ Forall whole_seconds C118_cells ∧
  readPickledPage (nim_decoders true (λ _ _, Err OtherError)) C118_page = Ok ([4], C118_cells, [(KDate, 2); (KStr, 2)]).
Proof.
  split; [|split; [repeat constructor; vm_compute; congruence|split; [repeat constructor|by vm_compute]]].
  refine (PyPage [_; _; _; _] _ _ _ _ (BININT1 4 [4] _) (BatchesMany _ [_; _; _; _] _ _ [] [] _
    (ItemsCons _ _ _ _ _ _ _ (PyDate _ (Ymd 2020 2 29) _ _ _ (DateBody _ [7; 228] _)
       (PyMade _ _ _ _ [7; 228; 2; 29] _ _ _ _ _ (Named _ _ _ _ (Put1 _ [14] _)) (Put1 _ [15] _) (Put1 _ [16] _) (Put1 _ [17] _)))
    (ItemsCons _ _ _ _ _ _ _ (PyDate _ (Ymd 2021 1 1) _ _ _ (DateBody _ [7; 229] _)
       (PyMade _ _ _ _ [7; 229; 1; 1] _ _ _ _ _ (NamedBefore _ _ _ 14 _ _ (Get1 _ [14] _)) (Put1 _ [18] _) (Put1 _ [19] _) (Put1 _ [20] _)))
    (ItemsCons _ _ _ _ _ _ _ (PyText _ [97] [1; 0; 0; 0] _ _ (Put1 _ [21] _))
    (ItemsCons _ _ _ _ _ _ _ (PyAgain _ (CStr [97]) 21 _ _ (Get1 _ [21] _)) (ItemsNil _))))) (BatchesNil _)) (Put1 _ [22] _));
    try (split; [done|split; [repeat constructor; cbn; lia|done]]); reflexivity.
Qed.

(** A page written with numpy 2 is not read, whatever its elements are (requirements.txt 2 names numpy 1.24.3, setup.py 82 any
    version) *)
Theorem C118_numpy2 dec rest : readPickledPage dec (numpy2_start ++ rest) = Err OtherError.
Proof. exact (numpy2_unread dec rest). Qed.
Print Assumptions C118_numpy2.

(** A page with a whole number of more than 32 bits is refused and not misread, whatever is in front of it and behind it *)
Theorem C118_wide checks scalar cs bs : wide_page cs bs → Forall cell_ok cs →
  readPickledPage (nim_decoders checks scalar) bs = Err OtherError.
Proof. exact (python_wide checks scalar cs bs). Qed.
Print Assumptions C118_wide.

(** the numbers 7 and 2 ** 31 *)
Example C118_wide_case :
  wide_page [CInt 7] (array_start 0 [op "K"; 2] ++ [] ++ [op "("] ++ ((op "K" :: [7]) ++ []) ++ [LONG1] ++
    [5; 0; 0; 0; 128; 0; op "e"; op "t"; op "q"; 14; op "b"; op "."]) ∧
  Forall cell_ok [CInt 7].
Proof.
  split; [|repeat constructor; vm_compute; congruence].
  refine (WideInBatch [_] 2 _ [] _ _ [_] _ _ _ eq_refl (BININT1 2 [2] _) (BatchesNil _)
    (ItemsCons _ _ _ _ _ _ _ (PyPlain _ _ _ (BININT1 7 [7] _) I) (ItemsNil _)));
    (split; [done|split; [repeat constructor; cbn; lia|done]]).
Qed.
