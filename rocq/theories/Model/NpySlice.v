(** Rows of pages: nimlite/numpy.nim, [[]] with positions (231-316), [newNDArray] of texts (1259-1263,
    with utils.nim 56-71), [len] and [getPageTypes] of a page (883-891, 926), [getItemAsObject]
    (1427-1452); nimlite/funcs/filter.nim [dumpPage] (216-264).  Lines without a file are of numpy.nim.

    Pages and files are those of Model/Npy.v.  Simplifications: a position outside a buffer is an
    IndexDefect, as in a build with bounds checks; the characters of a page of texts are as many as
    its shape and size say (memory behind them is not modelled); the order of a table of kinds is
    that of their first element. *)
From Verif.Spec Require Export Pick.
From Verif.Model Require Export Npy.
Local Open Scope Z_scope.

(** [buf[i]] *)
Definition at_index {A} (buf : list A) (i : Z) : res A :=
  if i <? 0 then Err IndexError
  else match buf !! Z.to_nat i with Some x => Ok x | None => Err IndexError end.

(** [collect: for i in slice: ...] *)
Fixpoint collect {A} (f : Z → res A) (slice : list Z) : res (list A) :=
  match slice with
  | [] => Ok []
  | i :: slice => res_bind (f i) (λ x, res_map (cons x) (collect f slice))
  end.

(** 234-241: the characters before the first NUL; [buf] starts at the element *)
Fixpoint runes_before_nul (size : nat) (buf : list Z) : res (list Z) :=
  match size with
  | O => Ok []
  | S size =>
      match buf with
      | [] => Err IndexError
      | ch :: buf => if ch =? 0 then Ok [] else res_map (cons ch) (runes_before_nul size buf)
      end
  end.

(** 231-243 *)
Definition unicode_item (buf : list Z) (size : nat) (index : Z) : res (list Z) :=
  if (index <? 0) && negb (size =? 0)%nat then Err IndexError
  else res_map utf8 (runes_before_nul size (drop (Z.to_nat (index * Z.of_nat size)) buf)).

(** 248-249: [size] characters are copied, the first is looked up *)
Definition unicode_chunk (buf : list Z) (size : nat) (j : Z) : res (list Z) :=
  res_map (λ _, take size (drop (Z.to_nat (j * Z.of_nat size)) buf)) (at_index buf (j * Z.of_nat size)).

(** 245-251 *)
Definition unicode_slice (buf : list Z) (size : nat) (slice : list Z) : res page :=
  res_map (λ chunks, PUnicode (zlen slice) (concat chunks) size) (collect (unicode_chunk buf size) slice).

(** utils.nim 65-71 *)
Definition maxStringLen (arr : list (list Z)) : Z :=
  fold_left (λ v s, Z.max v (zlen (toRunes s))) arr 1.

(** utils.nim 58-60: the characters of one text in a buffer of zeros; for an empty text [addr runes[0]]
    is an error in a build with bounds checks ([checks]) *)
Definition padded_runes (checks : bool) (maxLength : Z) (str : list Z) : res (list Z) :=
  let runes := toRunes str in
  match runes with
  | [] => if checks then Err IndexError else Ok (repeat 0 (Z.to_nat maxLength))
  | _ => Ok (runes ++ repeat 0 (Z.to_nat maxLength - List.length runes))
  end.
Fixpoint convertSeqStrToSeqRune (checks : bool) (maxLength : Z) (strs : list (list Z)) : res (list Z) :=
  match strs with
  | [] => Ok []
  | str :: strs =>
      res_bind (padded_runes checks maxLength str) (λ runes,
      res_map (app runes) (convertSeqStrToSeqRune checks maxLength strs))
  end.

(** 1259-1263 *)
Definition newUnicode (checks : bool) (buf : list (list Z)) : res page :=
  let mlen := maxStringLen buf in
  res_map (λ rbuf, PUnicode (zlen buf) rbuf (Z.to_nat mlen)) (convertSeqStrToSeqRune checks mlen buf).

(** 254-263 *)
Definition count_kinds (buf : list cell) : list (kind * Z) :=
  fold_left (λ dtypes el, dset dtypes (kind_of el) (dget_or dtypes (kind_of el) 0 + 1)) buf [].

(** 253-297; the conversions [PY_Int(v)] hold as all cells are of this kind *)
Definition object_slice (checks : bool) (self : list cell) (slice : list Z) : res page :=
  res_bind (collect (at_index self) slice) (λ buf,
    let dtypes := count_kinds buf in
    let objects := PObject [zlen buf] buf dtypes in
    match dtypes with
    | [(baseType, _)] =>
        match baseType with
        | KBool => Ok (PBool (map (λ v, match v with CBool b => b | _ => false end) buf))
        | KInt => Ok (PInt 8 (map (λ v, match v with CInt z => z | _ => 0 end) buf))
        | KFloat => Ok (PFloat 8 (map (λ v, match v with CFloat b => b | _ => 0 end) buf))
        | KDate => Ok (PDate (map (λ v, match v with CDate d => d | _ => Ymd 0 0 0 end) buf))
        | KDateTime =>
            Ok (PDateTime (map (λ v, match v with CDateTime d us => (d, us * 1000) | _ => (Ymd 0 0 0, 0) end) buf))
        | KStr => newUnicode checks (map (λ v, match v with CStr t => t | _ => [] end) buf)
        | KNone | KTime => Ok objects
        end
    | _ => Ok objects
    end).

(** 299-317 *)
Definition page_slice (checks : bool) (self : page) (slice : list Z) : res page :=
  match self with
  | PBool buf => res_map PBool (collect (at_index buf) slice)
  | PInt size buf => res_map (PInt size) (collect (at_index buf) slice)
  | PFloat size buf => res_map (PFloat size) (collect (at_index buf) slice)
  | PDate buf => res_map PDate (collect (at_index buf) slice)
  | PDateTime buf => res_map PDateTime (collect (at_index buf) slice)
  | PUnicode _ buf size => unicode_slice buf size slice
  | PObject _ buf _ => object_slice checks buf slice
  end.

(** 926 *)
Definition page_len (self : page) : Z :=
  match self with
  | PBool buf => zlen buf
  | PInt _ buf | PFloat _ buf => zlen buf
  | PDate buf => zlen buf
  | PDateTime buf => zlen buf
  | PUnicode shape _ _ => shape
  | PObject shape _ _ => calcShapeElements shape
  end.

(** 882-891 *)
Definition page_types (self : page) : list (kind * Z) :=
  match self with
  | PBool _ => [(KBool, page_len self)]
  | PInt _ _ => [(KInt, page_len self)]
  | PFloat _ _ => [(KFloat, page_len self)]
  | PUnicode _ _ _ => [(KStr, page_len self)]
  | PDate _ => [(KDate, page_len self)]
  | PDateTime _ => [(KDateTime, page_len self)]
  | PObject _ _ dtypes => dtypes
  end.

(** 1427-1439.  [widen]: a [float32] as a [float] *)
Definition getItemAsObject (widen : Z → Z) (self : page) (index : Z) : res cell :=
  match self with
  | PBool buf => res_map CBool (at_index buf index)
  | PInt _ buf => res_map CInt (at_index buf index)
  | PFloat size buf => res_map (λ b, CFloat (if (size =? 4)%nat then widen b else b)) (at_index buf index)
  | PUnicode _ buf size => res_map CStr (unicode_item buf size index)
  | PDate buf => res_map CDate (at_index buf index)
  | PDateTime buf => res_map (λ dt, CDateTime dt.1 (dt.2 / 1000)) (at_index buf index)
  | PObject _ buf _ => at_index buf index
  end.

Section files.
  Context (checks : bool) (scalar : list Z → list Z → res cell) (widen : Z → Z).

  (** 1441-1452; a path stands for its file *)
  Fixpoint item_loop (cnt : Z) (pagePaths : list (list Z)) (index : Z) : res cell :=
    match pagePaths with
    | [] => Err IndexError
    | file :: pagePaths =>
        res_bind (getPageLen file) (λ pageLength,
          if cnt + pageLength <=? index then item_loop (cnt + pageLength) pagePaths index
          else res_bind (readNumpy checks scalar file) (λ page, getItemAsObject widen page (index - cnt)))
    end.
  Definition getItemOfFiles (pagePaths : list (list Z)) (index : Z) : res cell := item_loop 0 pagePaths index.

  (** filter.nim 221-230 [dumpSlice]; the new page is also saved *)
  Definition dumpSlice (slice : list Z) (originalPage : page) : res (list page) :=
    if 0 <? zlen slice then res_map (λ p, [p]) (page_slice checks originalPage slice) else Ok [].

  (** filter.nim 232-239 *)
  Fixpoint firstPage (offset currentOffset : Z) (columns : list (list Z)) : res (Z * list (list Z)) :=
    match columns with
    | [] => Err IndexError
    | file :: rest =>
        res_bind (getPageLen file) (λ len,
          if offset <? currentOffset + len then Ok (currentOffset, columns)
          else firstPage offset (currentOffset + len) rest)
    end.

  (** filter.nim 254-256: the positions of the bits that are [b] *)
  Fixpoint indices (b : bool) (i : Z) (bits : list bool) : list Z :=
    match bits with
    | [] => []
    | m :: bits => if eqb m b then i :: indices b (i + 1) bits else indices b (i + 1) bits
    end.

  (** filter.nim 244-264; [mask] is what is left of the bitmask *)
  Fixpoint dumpLoop (mask : list bool) (indiceOffset : Z) (columns : list (list Z))
    : res (list page * list page) :=
    match mask with
    | [] => Ok ([], [])
    | _ =>
        match columns with
        | [] => Err IndexError
        | file :: rest =>
            res_bind (readNumpy checks scalar file) (λ page,
            let len := page_len page - indiceOffset in
            let sliceLen := Z.min (zlen mask) len in
            let bits := take (Z.to_nat sliceLen) mask in
            res_bind (dumpSlice (indices true indiceOffset bits) page) (λ pass,
            res_bind (dumpSlice (indices false indiceOffset bits) page) (λ fail,
            res_map (λ r, (pass ++ r.1, fail ++ r.2)) (dumpLoop (drop (Z.to_nat sliceLen) mask) 0 rest))))
        end
    end.

  (** filter.nim 216-264 *)
  Definition dumpPage (offset : Z) (mask : list bool) (columns : list (list Z)) : res (list page * list page) :=
    res_bind (firstPage offset 0 columns) (λ '(currentOffset, rest), dumpLoop mask (offset - currentOffset) rest).
End files.

(** ** Pages and files as the theorems have them *)

(** a page of texts is made of whole elements *)
Definition sized (p : page) : Prop :=
  match p with
  | PUnicode n buf size => (0 < size)%nat ∧ 0 <= n ∧ List.length buf = (Z.to_nat n * size)%nat
  | _ => True
  end.

(** texts that an array of characters can hold *)
Definition array_text (checks : bool) (c : cell) : Prop :=
  match c with
  | CStr t =>
      (∃ cs, t = utf8 cs ∧ Forall code_point cs ∧ head cs ≠ Some 0 ∧ stdpp.list.last cs ≠ Some 0)
      ∧ (checks = true → t ≠ [])
  | _ => True
  end.
Definition object_page (p : page) : Prop := match p with PObject _ _ _ => True | _ => False end.

(** no NUL within the text *)
Definition without_nul (c : cell) : Prop := match c with CStr t => 0 ∉ t | _ => True end.

(** objects that an array of their type can hold; None and times are never in one *)
Definition plain_cell (c : cell) : Prop := match c with CNone | CTime _ => True | c => array_cell c end.
Definition empty_text (c : cell) : Prop := c = CStr [].

(** a page of objects has as many as its shape says *)
Definition counted (p : page) : Prop :=
  match p with PObject shape buf _ => calcShapeElements shape = zlen buf | _ => True end.

(** the page in a file *)
Definition file_of (checks : bool) (scalar : list Z → list Z → res cell) (file : list Z) (p : page) : Prop :=
  readNumpy checks scalar file = Ok p ∧ counted p.
