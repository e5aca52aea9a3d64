(** Pages of objects written and read by nimlite. *)
From Coq Require Import Ascii String.
From Verif.Spec Require Import PickleFormat.
From Verif.Model Require Import PicklePage.
From Verif.Proof Require Import PicklePageProofs PickleFormatProofs.
Local Open Scope Z_scope.

(** ** C73: what is written to a page of objects is read back *)

(** false in general: the fraction of a second of a time grows 256 times *)
Theorem C73_time_refuted checks scalar :
  ∃ cs p, Forall cell_ok cs ∧ zlen cs < 2 ^ 31 ∧
    readPickledPage (nim_decoders checks scalar) (write_objects cs) = Ok p ∧ ¬ page_of cs p.
Proof.
  exists [CTime 500000], ([1], [CTime 128000000], [(KTime, 1)]).
  split; [repeat constructor; vm_compute; congruence|]. split; [done|]. split; [by vm_compute|].
  intros (_ & H & _). vm_compute in H. congruence.
Qed.
Print Assumptions C73_time_refuted.

(** ... a date with a time of half a second cannot be read by a debug build, a
    release build reads another time *)
Theorem C73_datetime_refuted scalar :
  ∃ cs, Forall cell_ok cs ∧ zlen cs < 2 ^ 31 ∧
    readPickledPage (nim_decoders true scalar) (write_objects cs) = Err OtherError ∧
    ∃ p, readPickledPage (nim_decoders false scalar) (write_objects cs) = Ok p ∧ ¬ page_of cs p.
Proof.
  exists [CDateTime (Ymd 2024 2 29) 500000].
  split; [repeat constructor; vm_compute; congruence|]. split; [done|]. split; [by vm_compute|].
  exists ([1], [CDateTime (Ymd 2024 2 29) 128000000], [(KDateTime, 1)]). split; [by vm_compute|].
  intros (_ & H & _). vm_compute in H. congruence.
Qed.
Print Assumptions C73_datetime_refuted.

(** ... and whole numbers keep 32 bits *)
Theorem C73_int_refuted checks scalar :
  ∃ z, - 2 ^ 63 <= z < 2 ^ 63 ∧
    ∃ p, readPickledPage (nim_decoders checks scalar) (write_objects [CInt z]) = Ok p ∧ ¬ page_of [CInt z] p.
Proof.
  exists (2 ^ 31). split; [lia|]. exists ([1], [CInt (- 2 ^ 31)], [(KInt, 1)]).
  split; [by vm_compute|]. intros (_ & H & _). vm_compute in H. congruence.
Qed.
Print Assumptions C73_int_refuted.

(** Without fractions of seconds and within the ranges of [cell_ok] every page
    comes back with its shape, its elements and the number of each kind.
    Missing for the full statement: fractions of seconds, wider integers. *)
Theorem C73_page_partial checks scalar cs :
  Forall cell_ok cs → Forall whole_seconds cs → zlen cs < 2 ^ 31 →
  ∃ p, readPickledPage (nim_decoders checks scalar) (write_objects cs) = Ok p ∧ page_of cs p.
Proof. exact (nim_roundtrip checks scalar cs). Qed.
Print Assumptions C73_page_partial.

(** What is read from any page: the fraction of every second 256 times; if that
    exceeds a second in a date with a time, an error where ranges are checked. *)
Theorem C73_fractions checks scalar cs :
  Forall cell_ok cs → zlen cs < 2 ^ 31 →
  (Forall (λ c, checks = true → is_datetime c → fraction c <= 3906) cs →
   ∃ p, readPickledPage (nim_decoders checks scalar) (write_objects cs) = Ok p ∧ page_of (map stretched cs) p)
  ∧ (¬ Forall (λ c, checks = true → is_datetime c → fraction c <= 3906) cs →
     readPickledPage (nim_decoders checks scalar) (write_objects cs) = Err OtherError).
Proof. exact (nim_fractions checks scalar cs). Qed.
Print Assumptions C73_fractions.

(** The file itself is right: a reader that decodes microseconds as CPython does
    gets every element back. *)
Theorem C73_written scalar cs :
  Forall cell_ok cs → zlen cs < 2 ^ 31 →
  ∃ p, readPickledPage (cpython_decoders scalar) (write_objects cs) = Ok p ∧ page_of cs p.
Proof. exact (cpython_roundtrip scalar cs). Qed.
Print Assumptions C73_written.

Example C73_example :
  let cs := [CNone; CInt 70000; CInt (-5); CStr [104; 195; 169]; CDate (Ymd 2020 2 29);
             CTime 3661000000; CDateTime (Ymd 1999 12 31) 86399000000; CBool true; CInt 7] in
  Forall cell_ok cs ∧ Forall whole_seconds cs ∧ zlen cs < 2 ^ 31 ∧
  readPickledPage (nim_decoders true (λ _ _, Err OtherError)) (write_objects cs)
  = Ok ([9], cs, [(KNone, 1); (KInt, 3); (KStr, 1); (KDate, 1); (KTime, 1); (KDateTime, 1); (KBool, 1)]).
Proof.
  split; [repeat constructor; vm_compute; congruence|].
  split; [repeat constructor|]. split; [done|]. by vm_compute.
Qed.

(** with 3906 microseconds the second is just not exceeded *)
Example C73_fractions_example :
  readPickledPage (nim_decoders true (λ _ _, Err OtherError))
    (write_objects [CDateTime (Ymd 2024 1 1) 3906; CTime 999999])
  = Ok ([2], [CDateTime (Ymd 2024 1 1) 999936; CTime 255999744], [(KDateTime, 1); (KTime, 1)]).
Proof. by vm_compute. Qed.

(** The bytes are those of Python's pickle module, protocol 3, which has no part in tablite (Spec/PickleFormat.v): writer and reader
    do not only agree with each other. *)
Theorem C73_format cs : Forall cell_ok cs → zlen cs < 2 ^ 31 → pickled_page cs (write_objects cs).
Proof. exact (page_pickled cs). Qed.
Print Assumptions C73_format.

(** the objects 300, None and 2020-02-29 behind the start of the page *)
Example C73_format_case :
  Forall cell_ok [CInt 300; CNone; CDate (Ymd 2020 2 29)] ∧
  drop (length (array_start 3 [75; 3])) (write_objects [CInt 300; CNone; CDate (Ymd 2020 2 29)]) =
    [77; 44; 1] ++ [78] ++
    ascii_bytes "cdatetime" ++ [10] ++ ascii_bytes "date" ++ [10] ++ [113; 14] ++ [67; 4; 7; 228; 2; 29] ++ [113; 15] ++ [133] ++ [113; 16] ++
    [82] ++ [113; 17] ++ ascii_bytes "et" ++ [113; 18] ++ ascii_bytes "b.".
Proof. split; [repeat constructor; vm_compute; congruence|]. by vm_compute. Qed.

(** ** Opcodes that Python writes and nimlite does not *)
Theorem C73_memo dec i b bs o st : dget (memo st) i = Some o →
  (little 1 i b → unpickle dec (op "h" :: b ++ bs) st = Ok (Running bs (Vm (o :: stack st) (metastack st) (memo st)))) ∧
  (little 4 i b → i < 2 ^ 31 → unpickle dec (op "j" :: b ++ bs) st = Ok (Running bs (Vm (o :: stack st) (metastack st) (memo st)))).
Proof. exact (λ H, conj (λ H1, step_binget dec i b bs o st H1 H) (λ H1 H2, step_long_binget dec i b bs o st H1 H2 H)). Qed.
Print Assumptions C73_memo.

Theorem C73_append dec bs v l s meta mem :
  unpickle dec (op "a" :: bs) (Vm (v :: OList l :: s) meta mem) = Ok (Running bs (Vm (OList (l ++ [v]) :: s) meta mem)).
Proof. exact (step_append dec bs v l s meta mem). Qed.
Print Assumptions C73_append.

Theorem C73_tuple2 dec bs b a s meta mem :
  unpickle dec (134 :: bs) (Vm (b :: a :: s) meta mem) = Ok (Running bs (Vm (OTuple [a; b] :: s) meta mem)).
Proof. exact (step_tuple2 dec bs b a s meta mem). Qed.
Print Assumptions C73_tuple2.

Theorem C73_empty dec bs st :
  unpickle dec (op ")" :: bs) st = Ok (Running bs (Vm (OEmptyTuple [] :: stack st) (metastack st) (memo st))) ∧
  unpickle dec (op "}" :: bs) st = Ok (Running bs (Vm (ODict :: stack st) (metastack st) (memo st))) ∧
  unpickle dec (143 :: bs) st = Ok (Running bs (Vm (OSet [] :: stack st) (metastack st) (memo st))).
Proof. exact (step_empty dec bs st). Qed.
Print Assumptions C73_empty.

(** Any other opcode cannot be read, ... *)
Theorem C73_unread dec o bs st : o ∉ page_opcodes ++ other_opcodes → unpickle dec (o :: bs) st = Err OtherError.
Proof. exact (unread_opcode dec o bs st). Qed.
Print Assumptions C73_unread.

(** ... so a page of Python with a whole number of more than 32 bits cannot *)
Example C73_unread_case : LONG1 ∉ page_opcodes ++ other_opcodes ∧
  unpickle (nim_decoders false (λ _ _, Err OtherError)) [LONG1; 5; 0; 0; 0; 128; 0; 46] (Vm [] [] []) = Err OtherError.
Proof. split; [apply (bool_decide_unpack _); vm_compute; exact I|reflexivity]. Qed.

(** "q 1" of a 7, dropped into a list by "h 1" and "a" *)
Example C73_memo_case :
  unpickle_loop (nim_decoders false (λ _ _, Err OtherError)) 9 [75; 7; 113; 1; 93; 104; 1; 97; 46] (Vm [] [] [])
  = Ok (OList [OCell (CInt 7)]).
Proof. by vm_compute. Qed.
