(** Pages of objects as Python writes them (pickle.py of the standard library, protocol 3), stated without the code.  Unlike the
    writer of nimlite, Python keeps texts in the memo, takes objects that it has written before from the memo, and writes the
    elements of a list in batches. *)
From Coq Require Import Ascii String.
From Verif.Spec Require Export PickleFormat.
Local Open Scope Z_scope.

(** What the memo has: a class, an object of the list, or a part that is not used again.  The objects are numbered from 0. *)
Inductive entry := Callable (module name : string) | Item (c : cell) | Something.

Inductive put_as (i : Z) : list Z → Prop :=
| Put1 bs : little 1 i bs → put_as i (op "q" :: bs)
| Put4 bs : little 4 i bs → i < 2 ^ 31 → put_as i (op "r" :: bs).
Inductive got_as (i : Z) : list Z → Prop :=
| Get1 bs : little 1 i bs → got_as i (op "h" :: bs)
| Get4 bs : little 4 i bs → i < 2 ^ 31 → got_as i (op "j" :: bs).

(** A class: by its name the first time, from the memo later *)
Inductive class_of (mem : list entry) (module name : string) : list Z → list entry → Prop :=
| Named p : put_as (zlen mem) p → class_of mem module name (global module name ++ p) (mem ++ [Callable module name])
| NamedBefore i g : mem !! i = Some (Callable module name) → got_as (Z.of_nat i) g → class_of mem module name g mem.

Inductive py_made (mem : list entry) (c : cell) (module name : string) (body : list Z) : list Z → list entry → Prop :=
| PyMade f mem1 p1 p2 p3 : class_of mem module name f mem1 →
    put_as (zlen mem1) p1 → put_as (zlen mem1 + 1) p2 → put_as (zlen mem1 + 2) p3 →
    py_made mem c module name body
      (f ++ [op "C"; zlen body] ++ body ++ p1 ++ [133] ++ p2 ++ [op "R"] ++ p3) (mem1 ++ [Something; Something; Item c]).

(** None, booleans and numbers are never in the memo *)
Definition unkept (c : cell) : Prop :=
  match c with CNone | CBool _ | CInt _ | CFloat _ => True | _ => False end.

Inductive py_item (mem : list entry) : cell → list Z → list entry → Prop :=
| PyPlain c bs : pickled c bs → unkept c → py_item mem c bs mem
| PyText t sz p : little 4 (zlen t) sz → put_as (zlen mem) p →
    py_item mem (CStr t) (op "X" :: sz ++ t ++ p) (mem ++ [Item (CStr t)])
| PyDate d body bs mem' : date_body d body → py_made mem (CDate d) "datetime" "date" body bs mem' →
    py_item mem (CDate d) bs mem'
| PyTime us body bs mem' : time_body us body → py_made mem (CTime us) "datetime" "time" body bs mem' →
    py_item mem (CTime us) bs mem'
| PyDatetime d us body body' bs mem' : date_body d body → time_body us body' →
    py_made mem (CDateTime d us) "datetime" "datetime" (body ++ body') bs mem' → py_item mem (CDateTime d us) bs mem'
| PyAgain c i g : mem !! i = Some (Item c) → got_as (Z.of_nat i) g → py_item mem c g mem.

Inductive py_items : list entry → list cell → list Z → list entry → Prop :=
| ItemsNil mem : py_items mem [] [] mem
| ItemsCons mem c b mem1 cs bs mem2 : py_item mem c b mem1 → py_items mem1 cs bs mem2 →
    py_items mem (c :: cs) (b ++ bs) mem2.

(** Single elements (APPEND) and batches (MARK ... APPENDS), in whatever order and of whatever size *)
Inductive py_batches : list entry → list cell → list Z → list entry → Prop :=
| BatchesNil mem : py_batches mem [] [] mem
| BatchesOne mem c b mem1 cs bs mem2 : py_item mem c b mem1 → py_batches mem1 cs bs mem2 →
    py_batches mem (c :: cs) (b ++ [op "a"] ++ bs) mem2
| BatchesMany mem cs1 b mem1 cs bs mem2 : py_items mem cs1 b mem1 → py_batches mem1 cs bs mem2 →
    py_batches mem (cs1 ++ cs) ([op "("] ++ b ++ [op "e"] ++ bs) mem2.

(** The start of the array uses fourteen numbers of the memo *)
Inductive python_page (cs : list cell) : list Z → Prop :=
| PyPage n_bytes b mem p : pickled (CInt (zlen cs)) n_bytes →
    py_batches (replicate 14 Something) cs b mem → put_as (zlen mem) p →
    python_page cs (array_start 0 n_bytes ++ b ++ [op "t"] ++ p ++ [op "b"; op "."]).

(** The start of a page written with numpy 2, where the module of [_reconstruct] has another name *)
Definition numpy2_start : list Z :=
  [128; 3] ++ global "numpy._core.multiarray" "_reconstruct" ++ q 0 ++ global "numpy" "ndarray" ++ q 1 ++
  [op "K"; 0; 133] ++ q 2 ++ [op "C"; 1; op "b"] ++ q 3 ++ [135] ++ q 4 ++ [op "R"].

(** The start of a page with a whole number of more than 32 bits behind the elements [cs], as the next element of a batch or a single
    one *)
Inductive wide_page (cs : list cell) : list Z → Prop :=
| WideInBatch n n_bytes cs1 b mem cs2 b' mem' rest : cs = cs1 ++ cs2 → pickled (CInt n) n_bytes →
    py_batches (replicate 14 Something) cs1 b mem → py_items mem cs2 b' mem' →
    wide_page cs (array_start 0 n_bytes ++ b ++ [op "("] ++ b' ++ [LONG1] ++ rest)
| WideSingle n n_bytes b mem rest : pickled (CInt n) n_bytes → py_batches (replicate 14 Something) cs b mem →
    wide_page cs (array_start 0 n_bytes ++ b ++ [LONG1] ++ rest).
