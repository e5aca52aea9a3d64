(** The format of Python's pickle module (pickletools.py of the standard library) as far as pages of objects need it, stated without
    the code: opcodes by their characters or numbers, protocol 3. *)
From Coq Require Import Ascii String.
From Verif.Spec Require Export ObjectPage.
Local Open Scope Z_scope.

Definition op (a : ascii) : Z := Z.of_N (N_of_ascii a).
Definition ascii_bytes (s : string) : list Z := map op (list_ascii_of_string s).

(** [bs] are the [k] bytes of [v], the lowest first *)
Definition little (k : nat) (v : Z) (bs : list Z) : Prop :=
  length bs = k ∧ Forall (λ b, 0 <= b < 256) bs ∧ foldr (λ b higher, b + 256 * higher) 0 bs = v.
Definition big (k : nat) (v : Z) (bs : list Z) : Prop := little k v (rev bs).

(** BINPUT and LONG_BINPUT: the object is kept in the memo *)
Inductive memoised : list Z → Prop :=
| BINPUT i bs : little 1 i bs → memoised (op "q" :: bs)
| LONG_BINPUT i bs : little 4 i bs → memoised (op "r" :: bs).

(** GLOBAL *)
Definition global (module name : string) : list Z := op "c" :: ascii_bytes module ++ [10] ++ ascii_bytes name ++ [10].

(** An object made of bytes: GLOBAL, SHORT_BINBYTES, TUPLE1, REDUCE *)
Inductive made_of (module name : string) (body : list Z) : list Z → Prop :=
| Made m1 m2 m3 m4 : memoised m1 → memoised m2 → memoised m3 → memoised m4 → zlen body < 256 →
    made_of module name body
      (global module name ++ m1 ++ [op "C"; zlen body] ++ body ++ m2 ++ [133] ++ m3 ++ [op "R"] ++ m4).

(** The bytes that dates and times of the datetime module are made of *)
Inductive date_body (d : ymd) : list Z → Prop :=
| DateBody y : big 2 (yy d) y → date_body d (y ++ [mm d; dd d]).
Inductive time_body (us : Z) : list Z → Prop :=
| TimeBody h mi s f bs : 0 <= h < 24 → 0 <= mi < 60 → 0 <= s < 60 → 0 <= f < 1000000 →
    us = ((h * 60 + mi) * 60 + s) * 1000000 + f → big 3 f bs → time_body us ([h; mi; s] ++ bs).

Inductive pickled : cell → list Z → Prop :=
| NONE : pickled CNone [op "N"]
| NEWTRUE : pickled (CBool true) [136]
| NEWFALSE : pickled (CBool false) [137]
| BININT1 z bs : little 1 z bs → pickled (CInt z) (op "K" :: bs)
| BININT2 z bs : little 2 z bs → pickled (CInt z) (op "M" :: bs)
| BININT z u bs : little 4 u bs → - 2 ^ 31 <= z < 2 ^ 31 → u = z ∨ u = z + 2 ^ 32 → pickled (CInt z) (op "J" :: bs)
| BINFLOAT bits bs : big 8 bits bs → pickled (CFloat bits) (op "G" :: bs)
| BINUNICODE t bs : little 4 (zlen t) bs → pickled (CStr t) (op "X" :: bs ++ t)
| Date d body bs : date_body d body → made_of "datetime" "date" body bs → pickled (CDate d) bs
| Time us body bs : time_body us body → made_of "datetime" "time" body bs → pickled (CTime us) bs
| Datetime d us body body' bs : date_body d body → time_body us body' → made_of "datetime" "datetime" (body ++ body') bs →
    pickled (CDateTime d us) bs.

(** What numpy writes in front of the objects of an array of [n] of them: [_reconstruct(ndarray, (0,), b"b")], then the state
    [(1, (n,), dtype("O8", False, True) with its state, False, [...])] *)
Definition q (i : Z) : list Z := [op "q"; i].
Definition array_start (n : Z) (n_bytes : list Z) : list Z :=
  [128; 3] ++ global "numpy.core.multiarray" "_reconstruct" ++ q 0 ++ global "numpy" "ndarray" ++ q 1 ++
  [op "K"; 0; 133] ++ q 2 ++ [op "C"; 1; op "b"] ++ q 3 ++ [135] ++ q 4 ++ [op "R"] ++ q 5 ++
  [op "("; op "K"; 1] ++ n_bytes ++ [133] ++ q 6 ++
  global "numpy" "dtype" ++ q 7 ++ [op "X"; 2; 0; 0; 0; op "O"; op "8"] ++ q 8 ++ [137; 136; 135] ++ q 9 ++ [op "R"] ++ q 10 ++
  [op "("; op "K"; 3; op "X"; 1; 0; 0; 0; op "|"] ++ q 11 ++ [op "N"; op "N"; op "N"] ++
  [op "J"; 255; 255; 255; 255] ++ [op "J"; 255; 255; 255; 255] ++ [op "K"; 63; op "t"] ++ q 12 ++ [op "b"; 137; op "]"] ++ q 13 ++
  (if 0 <? n then [op "("] else []).

(** The bytes of a page of objects *)
Inductive pickled_page (cs : list cell) : list Z → Prop :=
| Page n_bytes items m : pickled (CInt (zlen cs)) n_bytes → Forall2 pickled cs items → memoised m →
    pickled_page cs
      (array_start (zlen cs) n_bytes ++ concat items ++ (if 0 <? zlen cs then [op "e"] else []) ++ [op "t"] ++ m ++ [op "b"; op "."]).

(** Opcodes that Python's pickle uses for pages of objects besides those above: an entry of the memo (BINGET, LONG_BINGET), one more
    element of a list (APPEND), and objects without elements *)
Definition other_opcodes : list Z := [op "h"; op "j"; op "a"; 134; op ")"; op "}"; 143].
Definition page_opcodes : list Z :=
  [128; op "c"; op "q"; op "r"; op "J"; op "K"; op "M"; op "G"; 133; 135; op "C"; op "R"; op "("; op "X"; 136; 137; op "N"; op "t";
   op "b"; op "]"; op "e"; op "."].
(** LONG1: whole numbers of more than 32 bits *)
Definition LONG1 : Z := 138.
