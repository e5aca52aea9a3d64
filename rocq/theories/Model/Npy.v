(** Page files: nimlite/numpy.nim (writer of the header 345-384, parser of the
    header 387-605, readers 609-763, types of a page 893-913, [save] 928-1041,
    [pgIter] 146-191).  Lines without a file are of numpy.nim.

    A file is the list of its bytes.  Simplifications: a little endian machine
    ([endiannessMark] is [<]); the elements of a page are a list whose length is
    the shape (of a unicode page the shape is kept, of an object page too); Nim's
    strings and its unicode and times modules are modelled by lists of bytes,
    UTF-8 and the calendar; the type [m]
    (timedelta) is not modelled: its branch (526-531) does not set [descriptor]; a
    negative shape is an error (the code asks for a sequence of negative length);
    bytes of bools other than 0 and 1 count as true. *)
From Coq Require Import Ascii String.
From Verif.Spec Require Export Npy.
From Verif.Model Require Export PicklePage.
Local Open Scope Z_scope.

(** ** Nim's standard library *)

(** [$n] of a [uint]: at most 20 digits *)
Fixpoint dec (fuel : nat) (n : Z) : list Z :=
  match fuel with
  | O => []
  | S fuel => if n <? 10 then [48 + n] else dec fuel (n / 10) ++ [48 + n mod 10]
  end.
Definition uint_text (n : Z) : list Z := dec 20 n.

(** [parseInt]: underscores after a digit are ignored *)
Definition isDigit (c : Z) : bool := (48 <=? c) && (c <=? 57).
Fixpoint parse_digits (v : Z) (ds : list Z) : res Z :=
  match ds with
  | [] => Ok v
  | d :: ds =>
      if isDigit d then parse_digits (10 * v + (d - 48)) ds
      else if d =? 95 then parse_digits v ds else Err ValueError
  end.
Definition parse_uint (ds : list Z) : res Z :=
  match ds with d :: _ => if isDigit d then parse_digits 0 ds else Err ValueError | [] => Err ValueError end.
Definition parseInt (s : list Z) : res Z :=
  res_bind (match s with
            | d :: ds =>
                if d =? 45 then res_map Z.opp (parse_uint ds)
                else if d =? 43 then parse_uint ds else parse_uint s
            | [] => Err ValueError
            end) (λ v, if (- 2 ^ 63 <=? v) && (v <? 2 ^ 63) then Ok v else Err ValueError).

(** [split(',')]: at least one part *)
Fixpoint split_on (c : Z) (l : list Z) : list (list Z) :=
  match l with
  | [] => [[]]
  | x :: l =>
      if x =? c then [] :: split_on c l
      else match split_on c l with p :: ps => (x :: p) :: ps | [] => [[x]] end
  end.

(** the loops that look for a character: what is before it and what comes after *)
Fixpoint split_at (c : Z) (l : list Z) : option (list Z * list Z) :=
  match l with
  | [] => None
  | x :: l => if x =? c then Some ([], l) else '(a, b) ← split_at c l; Some (x :: a, b)
  end.

Definition isAlphaNumeric (c : Z) : bool :=
  (48 <=? c) && (c <=? 57) || (65 <=? c) && (c <=? 90) || (97 <=? c) && (c <=? 122).
Definition toLower (c : Z) : Z := if (65 <=? c) && (c <=? 90) then c + 32 else c.

(** [toRunes] of texts in UTF-8; [0xFFFD] for other bytes *)
Fixpoint toRunes (bs : list Z) : list Z :=
  match bs with
  | [] => []
  | b :: bs =>
      if b <=? 127 then b :: toRunes bs
      else if b / 32 =? 6 then
        match bs with
        | b1 :: bs => b mod 32 * 64 + b1 mod 64 :: toRunes bs
        | _ => [0xFFFD]
        end
      else if b / 16 =? 14 then
        match bs with
        | b1 :: b2 :: bs => b mod 16 * 4096 + b1 mod 64 * 64 + b2 mod 64 :: toRunes bs
        | _ => [0xFFFD]
        end
      else if b / 8 =? 30 then
        match bs with
        | b1 :: b2 :: b3 :: bs =>
            b mod 8 * 262144 + b1 mod 64 * 4096 + b2 mod 64 * 64 + b3 mod 64 :: toRunes bs
        | _ => [0xFFFD]
        end
      else 0xFFFD :: toRunes bs
  end.

(** [el.toTime().time2Duration] of a date with a time of [ns] nanoseconds since
    midnight: nanoseconds since 1970; [inDays] and [inMicroseconds] truncate *)
Definition ns_per_day : Z := 86400 * 1000000000.
Definition toTime (dt : ymd * Z) : Z := epoch_days dt.1 * ns_per_day + dt.2.
Definition inDays (ns : Z) : Z := Z.quot ns ns_per_day.
Definition inMicroseconds (ns : Z) : Z := Z.quot ns 1000.

(** [initTime(seconds, ns).utc()] *)
Definition date_of_days (n : Z) : ymd := default (Ymd 0 0 0) (days2Components n).
Definition utc (seconds ns : Z) : ymd * Z :=
  (date_of_days (seconds / 86400), seconds mod 86400 * 1000000000 + ns).

(** ** Pages: 64-104 *)
Inductive page :=
| PBool (buf : list bool)
| PInt (size : nat) (buf : list Z)
| PFloat (size : nat) (buf : list Z)
| PUnicode (shape : Z) (buf : list Z) (size : nat)
| PDate (buf : list ymd)
| PDateTime (buf : list (ymd * Z))
| PObject (shape : list Z) (buf : list cell) (dtypes : list (kind * Z)).

(** pytypes.nim 50-56 *)
Definition calcShapeElements (shape : list Z) : Z := fold_left Z.mul shape 1.

(** 187-189: the last character that is not NUL *)
Fixpoint until_last (buf : list Z) : list Z :=
  match buf with
  | [] => []
  | r :: buf =>
      match until_last buf with
      | [] => if r =? 0 then [] else [r]
      | l => r :: l
      end
  end.

(** 176-189: the text of one element *)
Definition rune_text (buf : list Z) : list Z :=
  if negb (List.last buf 0 =? 0) then utf8 buf
  else if List.hd 0 buf =? 0 then []
  else utf8 (until_last buf).

(** 166-191; the buffer has at most as many elements as characters *)
Fixpoint texts (fuel : nat) (sz : nat) (buf : list Z) : list (list Z) :=
  match fuel, buf with
  | O, _ | _, [] => []
  | S fuel, _ => rune_text (take sz buf) :: texts fuel sz (drop sz buf)
  end.

(** [pgIter]: 146-191.  [widen]: a [float32] as a [float] (156).  Of the
    nanoseconds of a datetime its users keep the microseconds (819). *)
Definition elements (widen : Z → Z) (p : page) : list cell :=
  match p with
  | PBool buf => map CBool buf
  | PInt _ buf => map CInt buf
  | PFloat size buf => map (λ b, CFloat (if (size =? 4)%nat then widen b else b)) buf
  | PUnicode _ buf size => map CStr (texts (List.length buf) size buf)
  | PDate buf => map CDate buf
  | PDateTime buf => map (λ dt, CDateTime dt.1 (dt.2 / 1000)) buf
  | PObject _ buf _ => buf
  end.

(** ** The writer *)

(** 12-14 *)
Definition NUMPY_MAGIC : list Z := [0x93; 78; 85; 77; 80; 89].
Definition NUMPY_MAJOR : list Z := [1].
Definition NUMPY_MINOR : list Z := [0].

(** 345-362 *)
Definition writeNumpyHeader (dtype : list Z) (shape : Z) : list Z :=
  let header := bytes_of "{'descr': '" ++ dtype ++ bytes_of "', 'fortran_order': False, 'shape': ("
                ++ uint_text shape ++ bytes_of ",)}" in
  let header_len := zlen header in
  let padding := 64 - (zlen NUMPY_MAGIC + zlen NUMPY_MAJOR + zlen NUMPY_MINOR + 2 + header_len) mod 64 in
  NUMPY_MAGIC ++ NUMPY_MAJOR ++ NUMPY_MINOR ++ le_bytes 2 ((padding + header_len) mod 2 ^ 16)
  ++ header ++ repeat 32 (Z.to_nat (padding - 1)) ++ [10].

(** 364-372 *)
Definition writeNumpyUnicode (str : list Z) (unicode_len : Z) : list Z :=
  concat (map (le_bytes 4) (toRunes str))
  ++ repeat 0 (4 * Z.to_nat (unicode_len - zlen (toRunes str))).

(** 374-375, 377-378, 383-384 *)
Definition writeNumpyInt (value : Z) : list Z := le_bytes 8 value.
Definition writeNumpyFloat (bits : Z) : list Z := le_bytes 8 bits.
Definition writeNumpyBool (value : bool) : list Z := [if value then 1 else 0].

(** 46-62 *)
Definition HeaderBooleanNDArray : list Z := bytes_of "|b1".
Definition HeaderIntNDArray (size : nat) : list Z := bytes_of "<i" ++ uint_text (Z.of_nat size).
Definition HeaderFloatNDArray (size : nat) : list Z := bytes_of "<f" ++ uint_text (Z.of_nat size).
Definition HeaderDateNDArray : list Z := bytes_of "<M8[D]".
Definition HeaderDateTimeNDArray : list Z := bytes_of "<M8[us]".
Definition HeaderObjectNDArray : list Z := bytes_of "|O8".
Definition gendtypeStr (len : Z) : list Z := bytes_of "<U" ++ uint_text len.

(** 966-981: [dump] of every element; an element of another kind (a wrong cast)
    writes nothing here *)
Definition saveAsPrimitive (buf : list cell) (headerType : list Z) (dump : cell → list Z) : list Z :=
  writeNumpyHeader headerType (zlen buf) ++ concat (map dump buf).
Definition writeBool (v : cell) : list Z := match v with CBool b => writeNumpyBool b | _ => [] end.
Definition writeInt (v : cell) : list Z := match v with CInt z => writeNumpyInt z | _ => [] end.
Definition writeFloat (v : cell) : list Z := match v with CFloat b => writeNumpyFloat b | _ => [] end.
Definition writeDate (v : cell) : list Z :=
  match v with CDate d => writeNumpyInt (inDays (toTime (d, 0))) | _ => [] end.
Definition writeDateTime (v : cell) : list Z :=
  match v with CDateTime d us => writeNumpyInt (inMicroseconds (toTime (d, us * 1000))) | _ => [] end.

(** 983-997; the longest in bytes *)
Definition saveAsUnicode (buf : list cell) : list Z :=
  let text v := match v with CStr t => t | _ => [] end in
  let longest := foldl (λ l v, Z.max l (zlen (text v))) 1 buf in
  writeNumpyHeader (gendtypeStr longest) (zlen buf)
  ++ concat (map (λ v, writeNumpyUnicode (text v) longest) buf).

(** 1026-1041 *)
Definition saveAsObjects (buf : list cell) : list Z :=
  writeNumpyHeader HeaderObjectNDArray (zlen buf) ++ write_objects buf.

(** 999-1041 *)
Definition saveObjects (buf : list cell) (dtypes : list (kind * Z)) : list Z :=
  let dtypes := filter (λ kv, kv.2 ≠ 0) dtypes in
  if existsb (λ kv, bool_decide (kv.1 = KNone)) dtypes then saveAsObjects buf
  else match dtypes with
       | [(activeType, n)] =>
           if 0 <? n then
             match activeType with
             | KBool => saveAsPrimitive buf HeaderBooleanNDArray writeBool
             | KInt => saveAsPrimitive buf (HeaderIntNDArray 8) writeInt
             | KFloat => saveAsPrimitive buf (HeaderFloatNDArray 8) writeFloat
             | KStr => saveAsUnicode buf
             | KDate => saveAsPrimitive buf HeaderDateNDArray writeDate
             | KDateTime => saveAsPrimitive buf HeaderDateTimeNDArray writeDateTime
             | KNone | KTime => saveAsObjects buf
             end
           else saveAsObjects buf
       | _ => saveAsObjects buf
       end.

(** 928-964 and 999-1041 *)
Definition save (p : page) : list Z :=
  match p with
  | PBool buf => writeNumpyHeader HeaderBooleanNDArray (zlen buf) ++ concat (map writeNumpyBool buf)
  | PInt size buf => writeNumpyHeader (HeaderIntNDArray size) (zlen buf) ++ concat (map (le_bytes size) buf)
  | PFloat size buf =>
      writeNumpyHeader (HeaderFloatNDArray size) (zlen buf) ++ concat (map (le_bytes size) buf)
  | PUnicode shape buf size =>
      writeNumpyHeader (gendtypeStr (Z.of_nat size)) shape
      ++ take (4 * Z.to_nat shape * size) (concat (map (le_bytes 4) buf))
  | PDate buf =>
      writeNumpyHeader HeaderDateNDArray (zlen buf)
      ++ concat (map (λ d, le_bytes 8 (inDays (toTime (d, 0)))) buf)
  | PDateTime buf =>
      writeNumpyHeader HeaderDateTimeNDArray (zlen buf)
      ++ concat (map (λ dt, le_bytes 8 (inMicroseconds (toTime dt))) buf)
  | PObject _ buf dtypes => saveObjects buf dtypes
  end.

(** ** The parser of the header.  The state is the header from [offset] on. *)

(** 395-417 *)
Definition consumeHeaderString (h : list Z) : res (list Z * list Z) :=
  match split_at 39 h with
  | Some (_, h) =>
      match split_at 39 h with
      | Some (s, h) => Ok (s, h)
      | None => Err OtherError
      end
  | None => Err OtherError
  end.

(** 420-424 *)
Fixpoint skip_to_alnum (h : list Z) : list Z :=
  match h with
  | [] => []
  | c :: h' => if isAlphaNumeric c then h else skip_to_alnum h'
  end.

(** 419-446; without a comma the slice up to -1 is no boolean *)
Definition consumeBool (h : list Z) : res (bool * list Z) :=
  match split_at 44 (skip_to_alnum h) with
  | Some (s, h) =>
      let s := map toLower s in
      if decide (s = bytes_of "true") then Ok (true, h)
      else if decide (s = bytes_of "false") then Ok (false, h)
      else Err OtherError
  | None => Err OtherError
  end.

(** 454-464: the text between the last opening and the first closing
    parenthesis; an error if it is a single character ([start_index ==
    end_index]).  The offset stays at the closing one. *)
Fixpoint shape_text (inside : option (list Z)) (h : list Z) : res (list Z * list Z) :=
  match h with
  | [] => Err OtherError
  | c :: h' =>
      if c =? 41 then
        match inside with
        | Some s => if (List.length s =? 1)%nat then Err OtherError else Ok (rev s, h)
        | None => Err OtherError
        end
      else if c =? 40 then shape_text (Some []) h'
      else shape_text (cons c <$> inside) h'
  end.

(** 469-475 *)
Fixpoint shape_numbers (parts : list (list Z)) : res (list Z) :=
  match parts with
  | [] => Ok []
  | [[]] => Ok []
  | [] :: _ => Err OtherError
  | s :: parts => res_bind (parseInt s) (λ n, res_map (cons n) (shape_numbers parts))
  end.

(** 448-477 *)
Definition consumeShape (h : list Z) : res (list Z * list Z) :=
  res_bind (shape_text None h) (λ '(s, h),
    res_map (λ shape, (shape, h)) (shape_numbers (split_on 44 s))).

(** 19-31 *)
Inductive descriptor :=
| D_OBJECT | D_UNICODE | D_BOOLEAN | D_INT | D_FLOAT | D_DATE_DAYS
| D_DATETIME_SECONDS | D_DATETIME_MILISECONDS | D_DATETIME_MICROSECONDS.

(** endianness, type, size *)
Definition descr := (bool * descriptor * Z)%type.

(** 491 without [m] *)
Definition valid_types : list Z := bytes_of "bifUOM".

(** 504-557: the type without its mark *)
Definition type_of (endianness : bool) (s : list Z) : res descr :=
  match s with
  | [] => Err IndexError
  | ty :: rest =>
      if ty =? 79 (* O *) then
        if decide (rest = [] ∨ rest = bytes_of "8") then Ok (endianness, D_OBJECT, -1) else Err OtherError
      else if ty =? 77 (* M *) then
        match rest with
        | 56 :: 91 :: r =>
            match rev r with
            | 93 :: r =>
                let dt_descriptor := rev r in
                if decide (dt_descriptor = bytes_of "D") then Ok (endianness, D_DATE_DAYS, 8)
                else if decide (dt_descriptor = bytes_of "us") then Ok (endianness, D_DATETIME_MICROSECONDS, 8)
                else if decide (dt_descriptor = bytes_of "ms") then Ok (endianness, D_DATETIME_MILISECONDS, 8)
                else if decide (dt_descriptor = bytes_of "s") then Ok (endianness, D_DATETIME_SECONDS, 8)
                else Err OtherError
            | _ => Err OtherError
            end
        | _ => Err OtherError
        end
      else if ty =? 98 (* b *) then
        res_bind (parseInt rest) (λ size,
          if size =? 1 then Ok (endianness, D_BOOLEAN, size) else Err OtherError)
      else if ty =? 105 (* i *) then res_map (λ size, (endianness, D_INT, size)) (parseInt rest)
      else if ty =? 102 (* f *) then res_map (λ size, (endianness, D_FLOAT, size)) (parseInt rest)
      else if ty =? 85 (* U *) then
        res_bind (parseInt rest) (λ size,
          if size <=? 0 then Err OtherError else Ok (endianness, D_UNICODE, size))
      else Err OtherError
  end.

(** 479-559 *)
Definition consumeDescr (h : list Z) : res (descr * list Z) :=
  res_bind (consumeHeaderString h) (λ '(d, h),
    let h := match split_at 44 h with Some (_, h) => h | None => [] end in
    match d with
    | [] => Err IndexError
    | c :: body =>
        if (c =? 124) || (c =? 60) then res_map (λ t, (t, h)) (type_of false body)
        else if c =? 62 then res_map (λ t, (t, h)) (type_of true body)
        else if bool_decide (c ∈ valid_types) then res_map (λ t, (t, h)) (type_of false d)
        else Err OtherError
    end).

(** 586-603: three entries *)
Fixpoint entries (n : nat) (h : list Z) (descr_ : option descr) (order : option bool)
  (shape : option (list Z)) : res (descr * bool * list Z) :=
  match n with
  | O =>
      match descr_, order, shape with
      | Some d, Some o, Some s => Ok (d, o, s)
      | _, _, _ => Err OtherError
      end
  | S n =>
      res_bind (consumeHeaderString h) (λ '(name, h),
        if decide (name = bytes_of "descr") then
          res_bind (consumeDescr h) (λ '(d, h), entries n h (Some d) order shape)
        else if decide (name = bytes_of "fortran_order") then
          res_bind (consumeBool h) (λ '(o, h), entries n h descr_ (Some o) shape)
        else if decide (name = bytes_of "shape") then
          res_bind (consumeShape h) (λ '(s, h), entries n h descr_ order (Some s))
        else Err OtherError)
  end.

(** 561-605 *)
Definition parseHeader (header : list Z) : res (descr * bool * list Z) :=
  match split_at 123 header with
  | Some (_, h) => entries 3 h None None None
  | None => Err OtherError
  end.

(** 387-393 *)
Definition validateHeader (header bs : list Z) : res (list Z) :=
  res_bind (read_n (List.length header) bs) (λ '(got, bs),
    if decide (got = header) then Ok bs else Err OtherError).

(** 721-743 *)
Definition readPageInfo (bs : list Z) : res (descr * Z * list Z) :=
  res_bind (validateHeader NUMPY_MAGIC bs) (λ bs,
  res_bind (validateHeader NUMPY_MAJOR bs) (λ bs,
  res_bind (validateHeader NUMPY_MINOR bs) (λ bs,
  res_bind (read_n 2 bs) (λ '(header_size, bs),
  res_bind (read_n (Z.to_nat (le_value header_size)) bs) (λ '(header, bs),
  res_bind (parseHeader header) (λ '(d, order, shape),
    if order : bool then Err OtherError
    else match shape with
         | [n] => Ok (d, n, bs)
         | _ => Err OtherError
         end)))))).

(** ** The readers *)

(** [n] words of [k] bytes, read into memory; 609-623 *)
Fixpoint read_words (k n : nat) (bs : list Z) : res (list Z) :=
  match n with
  | O => Ok []
  | S n => res_bind (read_n k bs) (λ '(w, bs), res_map (cons (le_value w)) (read_words k n bs))
  end.
Definition readPrimitiveBuffer (k : nat) (shape : Z) (bs : list Z) : res (list Z) :=
  if shape <? 0 then Err OtherError else read_words k (Z.to_nat shape) bs.

(** a word of [k] bytes as a signed number *)
Definition signed (k : nat) (v : Z) : Z :=
  if v <? 2 ^ (8 * Z.of_nat k - 1) then v else v - 2 ^ (8 * Z.of_nat k).

(** 631-637; the endianness is not used *)
Definition newIntNDArray (size : Z) (shape : Z) (bs : list Z) : res page :=
  if decide (size ∈ [1; 2; 4; 8]) then
    let k := Z.to_nat size in
    res_map (λ l, PInt k (map (signed k) l)) (readPrimitiveBuffer k shape bs)
  else Err OtherError.

(** 639-642 *)
Definition newDateArray_Days (shape : Z) (bs : list Z) : res page :=
  res_map (λ l, PDate (map (λ v, date_of_days (signed 8 v)) l)) (readPrimitiveBuffer 8 shape bs).

(** 644-648 *)
Definition newDateTimeArray_Seconds (shape : Z) (bs : list Z) : res page :=
  res_map (λ l, PDateTime (map (λ v, utc (signed 8 v) 0) l)) (readPrimitiveBuffer 8 shape bs).

(** 650-657 *)
Definition newDateTimeArray_Miliseconds (shape : Z) (bs : list Z) : res page :=
  res_map (λ l, PDateTime (map (λ v, let '(s, m) := divmod (signed 8 v) 1000 in utc s (m * 1000)) l))
    (readPrimitiveBuffer 8 shape bs).

(** 659-666 *)
Definition newDateTimeArray_Microseconds (shape : Z) (bs : list Z) : res page :=
  res_map (λ l, PDateTime (map (λ v, let '(s, u) := divmod (signed 8 v) 1000000 in utc s u) l))
    (readPrimitiveBuffer 8 shape bs).

(** 695-699 *)
Definition newFloatNDArray (size : Z) (shape : Z) (bs : list Z) : res page :=
  if decide (size ∈ [4; 8]) then
    let k := Z.to_nat size in res_map (PFloat k) (readPrimitiveBuffer k shape bs)
  else Err OtherError.

(** 701-710; for no elements [addr buf[0]] is an error in a build with bounds
    checks ([checks]) *)
Definition newUnicodeNDArray (checks : bool) (size : Z) (shape : Z) (bs : list Z) : res page :=
  if (shape =? 0) && checks then Err IndexError
  else res_map (λ buf, PUnicode shape buf (Z.to_nat size)) (readPrimitiveBuffer 4 (shape * size) bs).

Section reader.
  Context (checks : bool) (scalar : list Z → list Z → res cell).

  (** 712-719 *)
  Definition newObjectNDArray (shape : Z) (bs : list Z) : res page :=
    res_bind (readPickledPage (nim_decoders checks scalar) bs) (λ '(sh, buf, dtypes),
      if calcShapeElements sh =? shape then Ok (PObject sh buf dtypes) else Err OtherError).

  (** 745-763 *)
  Definition readNumpy (bs : list Z) : res page :=
    res_bind (readPageInfo bs) (λ '(descrEndianness, descrType, descrSize, shape, bs),
      match descrType with
      | D_BOOLEAN => res_map (λ l, PBool (map (λ v, negb (v =? 0)) l)) (readPrimitiveBuffer 1 shape bs)
      | D_INT => newIntNDArray descrSize shape bs
      | D_FLOAT => newFloatNDArray descrSize shape bs
      | D_UNICODE => newUnicodeNDArray checks descrSize shape bs
      | D_OBJECT => newObjectNDArray shape bs
      | D_DATE_DAYS => newDateArray_Days shape bs
      | D_DATETIME_SECONDS => newDateTimeArray_Seconds shape bs
      | D_DATETIME_MILISECONDS => newDateTimeArray_Miliseconds shape bs
      | D_DATETIME_MICROSECONDS => newDateTimeArray_Microseconds shape bs
      end).

  (** 853-856 *)
  Definition getPageLen (bs : list Z) : res Z :=
    res_map (λ '(_, shape, _), shape) (readPageInfo bs).

  (** 893-913 *)
  Definition getPageTypes (bs : list Z) : res (list (kind * Z)) :=
    res_bind (readPageInfo bs) (λ '(_, descrType, _, elements, bs),
      match descrType with
      | D_BOOLEAN => Ok [(KBool, elements)]
      | D_INT => Ok [(KInt, elements)]
      | D_FLOAT => Ok [(KFloat, elements)]
      | D_UNICODE => Ok [(KStr, elements)]
      | D_DATE_DAYS => Ok [(KDate, elements)]
      | D_DATETIME_SECONDS | D_DATETIME_MILISECONDS | D_DATETIME_MICROSECONDS => Ok [(KDateTime, elements)]
      | D_OBJECT =>
          res_map (λ p, match p with PObject _ _ dtypes => dtypes | _ => [] end)
            (newObjectNDArray elements bs)
      end).
End reader.

(** ** Pages as the theorems have them *)

(** an object page that is saved as an array of one type *)
Definition as_array (buf : list cell) : Prop :=
  buf ≠ [] ∧ ∃ k, k ≠ KNone ∧ k ≠ KTime ∧ Forall (λ c, kind_of c = k) buf.

(** what the arrays can hold: 64 bits, texts in UTF-8 *)
Definition array_cell (c : cell) : Prop :=
  match c with
  | CBool _ => True
  | CInt z => - 2 ^ 63 <= z < 2 ^ 63
  | CFloat bits => 0 <= bits < 2 ^ 64
  | CStr t => zlen t < 2 ^ 29 ∧ ∃ cs, t = utf8 cs ∧ Forall code_point cs ∧ head cs ≠ Some 0
                                     ∧ stdpp.list.last cs ≠ Some 0
  | CDate d => python_date d
  | CDateTime d us => python_date d ∧ 0 <= us < us_per_day
  | CNone | CTime _ => False
  end.

Definition page_ok (p : page) : Prop :=
  match p with
  | PBool buf => zlen buf < 2 ^ 63
  | PInt k buf =>
      k ∈ [1; 2; 4; 8]%nat ∧ Forall (λ z, - 2 ^ (8 * Z.of_nat k - 1) <= z < 2 ^ (8 * Z.of_nat k - 1)) buf
      ∧ zlen buf < 2 ^ 63
  | PFloat k buf => k ∈ [4; 8]%nat ∧ Forall (λ b, 0 <= b < 2 ^ (8 * Z.of_nat k)) buf ∧ zlen buf < 2 ^ 63
  | PUnicode n buf k =>
      1 <= Z.of_nat k < 2 ^ 29 ∧ n < 2 ^ 63 ∧
      ∃ els, zlen els = n ∧ buf = concat (map (λ cs, cs ++ repeat 0 (k - List.length cs)) els)
        ∧ Forall (λ cs, Forall code_point cs ∧ (List.length cs <= k)%nat ∧ head cs ≠ Some 0
                        ∧ stdpp.list.last cs ≠ Some 0) els
  | PDate buf => Forall python_date buf ∧ zlen buf < 2 ^ 63
  | PDateTime buf =>
      Forall (λ dt, python_date dt.1 ∧ 0 <= dt.2 < ns_per_day ∧ dt.2 mod 1000 = 0) buf ∧ zlen buf < 2 ^ 63
  | PObject shape buf dtypes =>
      shape = [zlen buf] ∧ NoDup dtypes.*1 ∧ (∀ k, dget_or dtypes k 0 = kind_count buf k)
      ∧ (as_array buf ∧ Forall array_cell buf ∧ zlen buf < 2 ^ 63
         ∨ ¬ as_array buf ∧ Forall cell_ok buf ∧ zlen buf < 2 ^ 31)
  end.

(** saved as an array of one type *)
Definition saved_as_array (p : page) : Prop :=
  match p with PObject _ buf _ => as_array buf | _ => True end.
