(** nimlite/pickling.nim [writePickleBinint] (lines 28-62) and the reader
    nimlite/unpickling.nim [loadBinInt], [loadBinInt1], [loadBinInt2]
    (lines 175-180, 245-260), which follows Python's pickle protocol. *)
From Verif.Spec Require Export Base.
Local Open Scope Z_scope.

(** [k] bytes of memory at [value.addr], little endian *)
Fixpoint le_bytes (k : nat) (v : Z) : list Z :=
  match k with O => [] | S k => v mod 256 :: le_bytes k (v / 256) end.

Fixpoint le_value (bs : list Z) : Z :=
  match bs with [] => 0 | b :: bs => b + 256 * le_value bs end.

(** pickleproto.nim 8-11 *)
Definition PKL_BININT : Z := 74.   (* 'J' *)
Definition PKL_BININT1 : Z := 75.  (* 'K' *)
Definition PKL_BININT2 : Z := 77.  (* 'M' *)

(** pickling.nim 49-62 with [T = int] and, inlined, [writePickleBinintGeneric]
    (28-37): the bytes written to the file.  [uint32 value] keeps the low 32
    bits. *)
Definition writePickleBinint (value : Z) : list Z :=
  if value <? 0 then PKL_BININT :: le_bytes 4 (value mod 2 ^ 32)
  else if value <=? 0xff then PKL_BININT1 :: le_bytes 1 value
  else if value <=? 0xffff then PKL_BININT2 :: le_bytes 2 value
  else PKL_BININT :: le_bytes 4 (value mod 2 ^ 32).

(** [cast[int32]] *)
Definition as_int32 (v : Z) : Z := if v <? 2 ^ 31 then v else v - 2 ^ 32.

(** unpickling.nim 505-515, 245-260: value and rest of the stream *)
Definition readPickleInt (bs : list Z) : option (Z * list Z) :=
  match bs with
  | op :: bs =>
      if op =? PKL_BININT then
        if (length bs <? 4)%nat then None else Some (as_int32 (le_value (take 4 bs)), drop 4 bs)
      else if op =? PKL_BININT1 then
        if (length bs <? 1)%nat then None else Some (le_value (take 1 bs), drop 1 bs)
      else if op =? PKL_BININT2 then
        if (length bs <? 2)%nat then None else Some (le_value (take 2 bs), drop 2 bs)
      else None
  | [] => None
  end.
