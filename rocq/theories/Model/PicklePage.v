(** Pages of objects: nimlite/pickling.nim (the writer), nimlite/unpickling.nim
    (the reader), constants of nimlite/pickleproto.nim, getters and constructors
    of nimlite/pytypes.nim and nimlite/dateutils.nim.

    A file is the list of its bytes.  Simplifications: a little endian machine
    (as for the rest of numpy.nim); the range checks of the getters of dates and
    times are left out (the values of the theorems are in range); an object
    stored in the memo of the reader is a copy, a later BUILD or APPENDS does
    not change it (the writer never reads the memo); reading past the end of the
    file is an error (in the code [iter()] yields zeros); [scalar] (unpickling.nim
    387-414) calls numpy and is a parameter. *)
From Coq Require Import Ascii String.
From Verif.Spec Require Export ObjectPage.
From Verif.Model Require Export Pickle Dict Dates.
Local Open Scope Z_scope.

(** the bytes of a text literal *)
Fixpoint bytes_of (s : string) : list Z :=
  match s with
  | EmptyString => []
  | String a s => Z.of_N (N_of_ascii a) :: bytes_of s
  end.

(** ** pickleproto.nim *)
Definition PKL_MARK : Z := 40.             (* '(' , line 1 *)
Definition PKL_STOP : Z := 46.             (* '.' , 2 *)
Definition PKL_NONE : Z := 78.             (* 'N' , 12 *)
Definition PKL_REDUCE : Z := 82.           (* 'R' , 15 *)
Definition PKL_BINUNICODE : Z := 88.       (* 'X' , 20 *)
Definition PKL_APPEND : Z := 97.           (* 'a' , 21 *)
Definition PKL_BUILD : Z := 98.            (* 'b' , 22 *)
Definition PKL_GLOBAL : Z := 99.           (* 'c' , 23 *)
Definition PKL_EMPTY_DICT : Z := 125.      (* '}' , 25 *)
Definition PKL_APPENDS : Z := 101.         (* 'e' , 26 *)
Definition PKL_BINGET : Z := 104.          (* 'h' , 28 *)
Definition PKL_LONG_BINGET : Z := 106.     (* 'j' , 30 *)
Definition PKL_EMPTY_LIST : Z := 93.       (* ']' , 32 *)
Definition PKL_BINPUT : Z := 113.          (* 'q' , 35 *)
Definition PKL_LONG_BINPUT : Z := 114.     (* 'r' , 36 *)
Definition PKL_TUPLE : Z := 116.           (* 't' , 38 *)
Definition PKL_EMPTY_TUPLE : Z := 41.      (* ')' , 39 *)
Definition PKL_BINFLOAT : Z := 71.         (* 'G' , 41 *)
Definition PKL_PROTO : Z := 128.           (* 45 *)
Definition PKL_TUPLE1 : Z := 133.          (* 50 *)
Definition PKL_TUPLE2 : Z := 134.          (* 51 *)
Definition PKL_TUPLE3 : Z := 135.          (* 52 *)
Definition PKL_NEWTRUE : Z := 136.         (* 53 *)
Definition PKL_NEWFALSE : Z := 137.        (* 54 *)
Definition PKL_SHORT_BINBYTES : Z := 67.   (* 'C' , 61 *)
Definition PKL_EMPTY_SET : Z := 143.       (* 68 *)
Definition PKL_STRING_TERM : Z := 10.      (* 82 *)
Definition PKL_PROTO_VERSION : Z := 3.     (* 83 *)

(** ** The writer.  It carries the counter [binput], a [uint32]. *)
Definition writer := Z → list Z * Z.

Definition raw (bs : list Z) : writer := λ binput, (bs, binput).

Fixpoint wseq (ws : list writer) : writer := λ binput,
  match ws with
  | [] => ([], binput)
  | w :: ws =>
      let '(b1, binput) := w binput in
      let '(b2, binput) := wseq ws binput in
      (b1 ++ b2, binput)
  end.

(** pickling.nim 4-13 *)
Definition writePickleBinput : writer := λ binput,
  (if binput <=? 0xff then PKL_BINPUT :: le_bytes 1 binput
   else PKL_LONG_BINPUT :: le_bytes 4 binput,
   (binput + 1) mod 2 ^ 32).

(** pickling.nim 15-22 *)
Definition writePickleGlobal (module_name import_name : list Z) : list Z :=
  PKL_GLOBAL :: module_name ++ PKL_STRING_TERM :: import_name ++ [PKL_STRING_TERM].

(** pickling.nim 24-26 *)
Definition writePickleProto : list Z := [PKL_PROTO; PKL_PROTO_VERSION].

(** pickling.nim 39-46 *)
Definition writePickleBinfloat (bits : Z) : list Z := PKL_BINFLOAT :: rev (le_bytes 8 bits).

(** pickling.nim 64-70 *)
Definition writePickleShortbinbytes (value : list Z) : list Z :=
  PKL_SHORT_BINBYTES :: le_bytes 1 (zlen value) ++ value.

(** pickling.nim 72-77 *)
Definition writePickleBinunicode (value : list Z) : list Z :=
  PKL_BINUNICODE :: le_bytes 4 (zlen value) ++ value.

(** pickling.nim 79-83 *)
Definition writePickleBoolean (value : bool) : list Z :=
  [if value then PKL_NEWTRUE else PKL_NEWFALSE].

(** pickling.nim 85-94: the year big endian *)
Definition writePickleDateBody (d : ymd) : list Z :=
  rev (le_bytes 2 (yy d)) ++ le_bytes 1 (mm d) ++ le_bytes 1 (dd d).

(** pytypes.nim 62-87 on a [Duration] of [us] microseconds; the time of a
    [DateTime] has the same fields *)
Definition inHours (us : Z) : Z := Z.quot us 3600000000.
Definition inMinutes (us : Z) : Z := Z.quot us 60000000.
Definition inSeconds (us : Z) : Z := Z.quot us 1000000.
Definition getHour (us : Z) : Z := Z.rem (inHours us) 24.
Definition getMinute (us : Z) : Z := inMinutes us - inHours us * 60.
Definition getSecond (us : Z) : Z := inSeconds us - inMinutes us * 60.
Definition getMicrosecond (us : Z) : Z := us - inSeconds us * 1000000.

(** pickling.nim 113-125: of the four bytes of the microseconds, big endian, the
    last three *)
Definition time_bytes (us : Z) : list Z :=
  le_bytes 1 (getHour us) ++ le_bytes 1 (getMinute us) ++ le_bytes 1 (getSecond us)
  ++ drop 1 (rev (le_bytes 4 (getMicrosecond us))).

(** pickling.nim 112-132 *)
Definition writePickleTimeBody (us : Z) : writer :=
  wseq [raw (time_bytes us); writePickleBinput; raw [PKL_TUPLE1]; writePickleBinput;
        raw [PKL_REDUCE]; writePickleBinput].

(** pickling.nim 96-108 *)
Definition writePickleDate (d : ymd) : writer :=
  wseq [raw (writePickleGlobal (bytes_of "datetime") (bytes_of "date")); writePickleBinput;
        raw [PKL_SHORT_BINBYTES; 4]; raw (writePickleDateBody d);
        writePickleBinput; raw [PKL_TUPLE1]; writePickleBinput; raw [PKL_REDUCE]; writePickleBinput].

(** pickling.nim 134-140 *)
Definition writePickleTime (us : Z) : writer :=
  wseq [raw (writePickleGlobal (bytes_of "datetime") (bytes_of "time")); writePickleBinput;
        raw [PKL_SHORT_BINBYTES; 6]; writePickleTimeBody us].

(** pickling.nim 142-149; the ['\10'] of Nim is decimal *)
Definition writePickleDatetime (d : ymd) (us : Z) : writer :=
  wseq [raw (writePickleGlobal (bytes_of "datetime") (bytes_of "datetime")); writePickleBinput;
        raw [PKL_SHORT_BINBYTES; 10]; raw (writePickleDateBody d); writePickleTimeBody us].

(** pickling.nim 151-172 *)
Definition writePicklePyObj (c : cell) : writer :=
  match c with
  | CNone => raw [PKL_NONE]
  | CBool b => raw (writePickleBoolean b)
  | CInt z => raw (writePickleBinint z)
  | CFloat bits => raw (writePickleBinfloat bits)
  | CStr t => raw (writePickleBinunicode t)
  | CDate d => writePickleDate d
  | CTime us => writePickleTime us
  | CDateTime d us => writePickleDatetime d us
  end.

(** pickling.nim 174-231 *)
Definition writePickleStart (elem_count : Z) : writer := λ _,
  wseq [raw writePickleProto;
        raw (writePickleGlobal (bytes_of "numpy.core.multiarray") (bytes_of "_reconstruct"));
        writePickleBinput;
        raw (writePickleGlobal (bytes_of "numpy") (bytes_of "ndarray")); writePickleBinput;
        raw (writePickleBinint 0); raw [PKL_TUPLE1]; writePickleBinput;
        raw (writePickleShortbinbytes (bytes_of "b")); writePickleBinput;
        raw [PKL_TUPLE3]; writePickleBinput; raw [PKL_REDUCE]; writePickleBinput;
        raw [PKL_MARK];
        raw (writePickleBinint 1); raw (writePickleBinint elem_count);
        raw [PKL_TUPLE1]; writePickleBinput;
        raw (writePickleGlobal (bytes_of "numpy") (bytes_of "dtype")); writePickleBinput;
        raw (writePickleBinunicode (bytes_of "O8")); writePickleBinput;
        raw (writePickleBoolean false); raw (writePickleBoolean true);
        raw [PKL_TUPLE3]; writePickleBinput; raw [PKL_REDUCE]; writePickleBinput;
        raw [PKL_MARK];
        raw (writePickleBinint 3); raw (writePickleBinunicode (bytes_of "|")); writePickleBinput;
        raw [PKL_NONE]; raw [PKL_NONE]; raw [PKL_NONE];
        raw (writePickleBinint (-1)); raw (writePickleBinint (-1)); raw (writePickleBinint 63);
        raw [PKL_TUPLE];
        writePickleBinput; raw [PKL_BUILD]; raw (writePickleBoolean false);
        raw [PKL_EMPTY_LIST]; writePickleBinput;
        raw (if 0 <? elem_count then [PKL_MARK] else [])] 0.

(** pickling.nim 233-240 *)
Definition writePickleFinish (elem_count : Z) : writer :=
  wseq [raw (if 0 <? elem_count then [PKL_APPENDS] else []);
        raw [PKL_TUPLE]; writePickleBinput; raw [PKL_BUILD]; raw [PKL_STOP]].

(** numpy.nim 1029-1037 without the header: the page written element by element *)
Definition write_objects (cs : list cell) : list Z :=
  (wseq [writePickleStart (zlen cs); wseq (map writePicklePyObj cs);
         writePickleFinish (zlen cs)] 0).1.

(** ** The reader *)

(** the objects on its stack: unpickling.nim 13-45 and pytypes/pyobjs.nim 28-53.
    [OTuple] is a [TuplePickle], [OEmptyTuple] the [Py_Tuple] of line 532. *)
Inductive obj :=
| OCell (c : cell)
| OGlobal (module name : list Z)
| OBytes (value : list Z)
| OTuple (elems : list obj)
| OEmptyTuple (elems : list obj)
| OList (elems : list obj)
| OSet (elems : list obj)
| ODict
| ODtype (dtype : list Z) (elems : list obj)
| OArray (shape : list Z) (dtype : list Z) (elems : list obj).

(** [stack] with its last element first *)
Record vm := Vm { stack : list obj; metastack : list (list obj); memo : list (Z * obj) }.

(** what [newReducePickle] does with the bytes of dates and with numpy scalars *)
Record decoders := Decoders {
  d_date : list Z → res cell;
  d_time : list Z → res cell;
  d_datetime : list Z → res cell;
  d_scalar : list Z → list Z → res cell }.

(** [sz] bytes of the file *)
Definition read_n (sz : nat) (bs : list Z) : res (list Z * list Z) :=
  if (List.length bs <? sz)%nat then Err OtherError else Ok (take sz bs, drop sz bs).

(** unpickling.nim 61-72 *)
Fixpoint readLine (bs : list Z) : res (list Z * list Z) :=
  match bs with
  | [] => Err OtherError
  | ch :: bs =>
      if ch =? PKL_STRING_TERM then Ok ([], bs)
      else res_map (λ '(l, bs), (ch :: l, bs)) (readLine bs)
  end.

(** dateutils.nim 119-120, pytypes.nim 20: the checks of [Month], [MonthdayRange]
    and of [dateTime] of Nim's times module *)
Definition newPY_Date (y m d : Z) : res ymd :=
  if (1 <=? m) && (m <=? 12) && (1 <=? d)
     && (d <=? List.nth (Z.to_nat (m - 1)) (DAYS_PER_MONTH (isLeapYear y)) 0)
  then Ok (Ymd y m d) else Err OtherError.

(** dateutils.nim 125-126, pytypes.nim 40-45 *)
Definition newPY_Time (h mi s us : Z) : Z := ((h * 60 + mi) * 60 + s) * 1000000 + us.

(** dateutils.nim 122-123, pytypes.nim 23-29: [HourRange], [MinuteRange],
    [SecondRange] (a leap second is not modelled) and [NanosecondRange].  The
    range checks are made in a debug build ([checks]) and not in a release build
    (build_nim.sh 25: [-d:danger]): there the fields are kept as they are, [us]
    of the result is the time of the day with a fraction beyond a second. *)
Definition newPY_DateTime (checks : bool) (y m d h mi s us : Z) : res cell :=
  res_bind (newPY_Date y m d) (λ dt,
    if negb checks || (h <? 24) && (mi <? 60) && (s <? 60) && (us * 1000 <=? 999999999)
    then Ok (CDateTime dt (newPY_Time h mi s us)) else Err OtherError).

Definition at_ (bs : list Z) (i : nat) : Z := List.nth i bs 0.

(** unpickling.nim 344, 359: [swapEndian16] *)
Definition swapped16 (bs : list Z) : Z := le_value (rev [at_ bs 0; at_ bs 1]).

(** unpickling.nim 365-366 and 383-384: three bytes are copied to the start of
    a [uint32], then [swapEndian32] reverses its four bytes *)
Definition read_microsecond (bs : list Z) (i : nat) : Z :=
  le_value (rev [at_ bs i; at_ bs (i + 1); at_ bs (i + 2); 0]).

(** unpickling.nim 340-348 *)
Definition nim_date (bs : list Z) : res cell :=
  if (List.length bs <? 4)%nat then Err IndexError
  else res_map CDate (newPY_Date (swapped16 bs) (at_ bs 2) (at_ bs 3)).

(** unpickling.nim 353-371 *)
Definition nim_datetime (checks : bool) (bs : list Z) : res cell :=
  if (List.length bs <? 10)%nat then Err IndexError
  else newPY_DateTime checks (swapped16 bs) (at_ bs 2) (at_ bs 3) (at_ bs 4) (at_ bs 5) (at_ bs 6)
         (read_microsecond bs 7).

(** unpickling.nim 376-386 *)
Definition nim_time (bs : list Z) : res cell :=
  if (List.length bs <? 6)%nat then Err IndexError
  else Ok (CTime (newPY_Time (at_ bs 0) (at_ bs 1) (at_ bs 2) (read_microsecond bs 3))).

Definition nim_decoders (checks : bool) (scalar : list Z → list Z → res cell) : decoders :=
  Decoders nim_date nim_time (nim_datetime checks) scalar.

Section reader.
  Context (dec : decoders).

  (** unpickling.nim 326-416 *)
  Definition newReducePickle (fn : obj) (args : obj) : res obj :=
    match fn, args with
    | OGlobal m n, OTuple elems =>
        if decide (m = bytes_of "numpy.core.multiarray" ∧ n = bytes_of "_reconstruct") then
          if (List.length elems =? 3)%nat then Ok (OArray [] [] []) else Err OtherError
        else if decide (m = bytes_of "numpy" ∧ n = bytes_of "dtype") then
          match elems with
          | [OCell (CStr dtype); _; _] => Ok (ODtype dtype [])
          | _ => Err OtherError
          end
        else if decide (m = bytes_of "datetime" ∧ n = bytes_of "date") then
          match elems with [OBytes b] => res_map OCell (d_date dec b) | _ => Err OtherError end
        else if decide (m = bytes_of "datetime" ∧ n = bytes_of "datetime") then
          match elems with [OBytes b] => res_map OCell (d_datetime dec b) | _ => Err OtherError end
        else if decide (m = bytes_of "datetime" ∧ n = bytes_of "time") then
          match elems with [OBytes b] => res_map OCell (d_time dec b) | _ => Err OtherError end
        else if decide (m = bytes_of "numpy.core.multiarray" ∧ n = bytes_of "scalar") then
          match elems with
          | ODtype dtype _ :: OBytes b :: _ => res_map OCell (d_scalar dec dtype b)
          | _ => Err TypeError
          end
        else Err OtherError
    | _, _ => Err TypeError
    end.

  (** unpickling.nim 447: the elements of the shape *)
  Fixpoint shape_of (elems : list obj) : res (list Z) :=
    match elems with
    | [] => Ok []
    | OCell (CInt z) :: elems => res_map (cons z) (shape_of elems)
    | _ => Err TypeError
    end.

  (** unpickling.nim 433-453 *)
  Definition setState (inst : obj) (state : list obj) : res obj :=
    match inst with
    | ODtype dtype elems => Ok (ODtype dtype (elems ++ state))
    | OArray _ _ _ =>
        match state with
        | OCell (CInt np_ver) :: np_shape :: np_dtype :: _ :: np_rawdata :: _ =>
            if negb (np_ver =? 1) then Err OtherError
            else match np_shape, np_dtype, np_rawdata with
                 | OTuple sh, ODtype dtype _, OList raw =>
                     res_map (λ sh, OArray sh dtype raw) (shape_of sh)
                 | _, _, _ => Err TypeError
                 end
        | _ => Err TypeError
        end
    | _ => Err OtherError
    end.

  (** unpickling.nim 473-477: [list.elems.add] of an iterable *)
  Definition add_elems (o : obj) (more : list obj) : res obj :=
    match o with
    | OList elems => Ok (OList (elems ++ more))
    | OSet elems => Ok (OSet (elems ++ more))
    | OTuple elems => Ok (OTuple (elems ++ more))
    | OEmptyTuple elems => Ok (OEmptyTuple (elems ++ more))
    | ODtype dtype elems => Ok (ODtype dtype (elems ++ more))
    | _ => Err TypeError
    end.

  (** the object of a STOP, or the rest of the file and the new state *)
  Inductive outcome := Stopped (o : obj) | Running (bs : list Z) (st : vm).

  (** push, and replace of the top of the stack *)
  Definition push (o : obj) (bs : list Z) (st : vm) : res outcome :=
    Ok (Running bs (Vm (o :: stack st) (metastack st) (memo st))).

  Definition with_stack (s : list obj) (bs : list Z) (st : vm) : res outcome :=
    Ok (Running bs (Vm s (metastack st) (memo st))).

  (** unpickling.nim 202-214 *)
  Definition put (i : Z) (bs : list Z) (st : vm) : res outcome :=
    match stack st with
    | o :: _ => Ok (Running bs (Vm (stack st) (metastack st) (dset (memo st) i o)))
    | [] => Err IndexError
    end.

  (** unpickling.nim 216-230 *)
  Definition get (i : Z) (bs : list Z) (st : vm) : res outcome :=
    match dget (memo st) i with Some o => push o bs st | None => Err KeyError end.

  (** unpickling.nim 289-292: the popped stack, first element first, and the state *)
  Definition popMark (st : vm) : res (list obj * vm) :=
    match metastack st with
    | s :: meta => Ok (rev (stack st), Vm s meta (memo st))
    | [] => Err IndexError
    end.

  (** unpickling.nim 505-538 with the functions of 182-324 and 418-503 *)
  Definition unpickle (bs : list Z) (st : vm) : res outcome :=
    match bs with
    | [] => Err OtherError
    | opcode :: bs =>
        if opcode =? PKL_PROTO then
          res_bind (read_n 1 bs) (λ '(v, bs),
            if at_ v 0 =? PKL_PROTO_VERSION then Ok (Running bs st) else Err OtherError)
        else if opcode =? PKL_GLOBAL then
          res_bind (readLine bs) (λ '(module, bs),
            res_bind (readLine bs) (λ '(name, bs), push (OGlobal module name) bs st))
        else if opcode =? PKL_BINPUT then
          res_bind (read_n 1 bs) (λ '(i, bs), put (le_value i) bs st)
        else if opcode =? PKL_LONG_BINPUT then
          res_bind (read_n 4 bs) (λ '(i, bs), put (as_int32 (le_value i)) bs st)
        else if opcode =? PKL_BININT then
          res_bind (read_n 4 bs) (λ '(v, bs), push (OCell (CInt (as_int32 (le_value v)))) bs st)
        else if opcode =? PKL_BININT1 then
          res_bind (read_n 1 bs) (λ '(v, bs), push (OCell (CInt (le_value v))) bs st)
        else if opcode =? PKL_BININT2 then
          res_bind (read_n 2 bs) (λ '(v, bs), push (OCell (CInt (le_value v))) bs st)
        else if opcode =? PKL_BINFLOAT then
          res_bind (read_n 8 bs) (λ '(v, bs), push (OCell (CFloat (le_value (rev v)))) bs st)
        else if opcode =? PKL_TUPLE1 then
          match stack st with
          | o1 :: s => with_stack (OTuple [o1] :: s) bs st
          | _ => Err IndexError
          end
        else if opcode =? PKL_TUPLE2 then
          match stack st with
          | o1 :: o2 :: s => with_stack (OTuple [o2; o1] :: s) bs st
          | _ => Err IndexError
          end
        else if opcode =? PKL_TUPLE3 then
          match stack st with
          | o1 :: o2 :: o3 :: s => with_stack (OTuple [o3; o2; o1] :: s) bs st
          | _ => Err IndexError
          end
        else if opcode =? PKL_SHORT_BINBYTES then
          res_bind (read_n 1 bs) (λ '(sz, bs),
            res_bind (read_n (Z.to_nat (le_value sz)) bs) (λ '(v, bs), push (OBytes v) bs st))
        else if opcode =? PKL_REDUCE then
          match stack st with
          | args :: fn :: s =>
              res_bind (newReducePickle fn args) (λ o, with_stack (o :: s) bs st)
          | _ => Err IndexError
          end
        else if opcode =? PKL_MARK then
          Ok (Running bs (Vm [] (stack st :: metastack st) (memo st)))
        else if opcode =? PKL_BINUNICODE then
          res_bind (read_n 4 bs) (λ '(sz, bs),
            res_bind (read_n (Z.to_nat (as_int32 (le_value sz))) bs) (λ '(v, bs),
              push (OCell (CStr v)) bs st))
        else if opcode =? PKL_NEWTRUE then push (OCell (CBool true)) bs st
        else if opcode =? PKL_NEWFALSE then push (OCell (CBool false)) bs st
        else if opcode =? PKL_NONE then push (OCell CNone) bs st
        else if opcode =? PKL_TUPLE then
          res_bind (popMark st) (λ '(items, st), push (OTuple items) bs st)
        else if opcode =? PKL_BUILD then
          match stack st with
          | OTuple state :: inst :: s =>
              res_bind (setState inst state) (λ o, with_stack (o :: s) bs st)
          | _ :: _ :: _ => Err TypeError
          | _ => Err IndexError
          end
        else if opcode =? PKL_EMPTY_LIST then push (OList []) bs st
        else if opcode =? PKL_EMPTY_DICT then push ODict bs st
        else if opcode =? PKL_EMPTY_SET then push (OSet []) bs st
        else if opcode =? PKL_EMPTY_TUPLE then push (OEmptyTuple []) bs st
        else if opcode =? PKL_APPEND then
          match stack st with
          | value :: o :: s => res_bind (add_elems o [value]) (λ o, with_stack (o :: s) bs st)
          | _ => Err IndexError
          end
        else if opcode =? PKL_APPENDS then
          res_bind (popMark st) (λ '(items, st),
            match stack st with
            | o :: s => res_bind (add_elems o items) (λ o, with_stack (o :: s) bs st)
            | _ => Err IndexError
            end)
        else if opcode =? PKL_STOP then
          match stack st with o :: _ => Ok (Stopped o) | [] => Err IndexError end
        else if opcode =? PKL_BINGET then
          res_bind (read_n 1 bs) (λ '(i, bs), get (le_value i) bs st)
        else if opcode =? PKL_LONG_BINGET then
          res_bind (read_n 4 bs) (λ '(i, bs), get (as_int32 (le_value i)) bs st)
        else Err OtherError
    end.

  (** unpickling.nim 583-592; every round reads a byte, the length of the file
      is enough fuel *)
  Fixpoint unpickle_loop (fuel : nat) (bs : list Z) (st : vm) : res obj :=
    match fuel with
    | O => Err OtherError
    | S fuel =>
        match unpickle bs st with
        | Ok (Running bs st) => unpickle_loop fuel bs st
        | Ok (Stopped o) => Ok o
        | Err e => Err e
        end
    end.

  (** unpickling.nim 555-564 *)
  Fixpoint page_loop (elems : list obj) (buf : list cell) (dtypes : list (kind * Z))
    : res (list cell * list (kind * Z)) :=
    match elems with
    | [] => Ok (buf, dtypes)
    | OCell c :: elems =>
        page_loop elems (buf ++ [c]) (dset dtypes (kind_of c) (dget_or dtypes (kind_of c) 0 + 1))
    | _ => Err TypeError
    end.

  (** unpickling.nim 551-594 *)
  Definition readPickledPage (bs : list Z) : res (list Z * list cell * list (kind * Z)) :=
    res_bind (unpickle_loop (List.length bs) bs (Vm [] [] [])) (λ o,
      match o with
      | OArray shape _ elems => res_map (λ '(buf, dtypes), (shape, buf, dtypes)) (page_loop elems [] [])
      | _ => Err OtherError
      end).
End reader.

(** The decoding of CPython's datetime module: three bytes of microseconds, big
    endian. *)
Definition cpython_date (bs : list Z) : res cell := nim_date bs.
Definition cpython_time (bs : list Z) : res cell :=
  if (List.length bs =? 6)%nat
  then Ok (CTime (newPY_Time (at_ bs 0) (at_ bs 1) (at_ bs 2) (le_value (rev (drop 3 bs)))))
  else Err TypeError.
Definition cpython_datetime (bs : list Z) : res cell :=
  if (List.length bs =? 10)%nat
  then newPY_DateTime true (swapped16 bs) (at_ bs 2) (at_ bs 3) (at_ bs 4) (at_ bs 5) (at_ bs 6)
         (le_value (rev (drop 7 bs)))
  else Err TypeError.

Definition cpython_decoders (scalar : list Z → list Z → res cell) : decoders :=
  Decoders cpython_date cpython_time cpython_datetime scalar.
