(** nimlite/infertypes.nim [inferFloat], nimlite/ranking.nim [updateRank] and
    nimlite/funcs/text_reader/paging.nim for one page of one column, with
    [guess_datatypes] on.

    Simplifications: a field is the list of its bytes; the rows of the page are given
    ([parseCSV] is in Model/Csv.v); counts are unbounded; the cells written are
    given instead of the bytes of the page (Model/Npy.v and Model/PicklePage.v have
    these).  [checks]: see Model/Infer.v. *)
From Coq Require Import String.
From Verif.Model Require Export Infer Rank.
Local Open Scope string_scope.
Local Open Scope list_scope.
Local Open Scope Z_scope.

(** ** Floats: infertypes.nim 97-187 *)

(** The arithmetic of floats is a parameter; floats are given by their bits. *)
Record float_arith := FloatArith {
  f_int : Z → Z;             (* a whole number *)
  f_add : Z → Z → Z;
  f_mul : Z → Z → Z;
  f_tenth : Z;               (* 0.1 *)
  f_pow10 : Z → Z;           (* [pow(10, x)] *)
  f_parse : list Z → Z       (* the value of a text accepted by [parseFloat] *)
}.

(** std/strutils [parseFloat]: digits, ignoring underscores after a digit; how many
    and what follows *)
Fixpoint float_digits (started : bool) (s : list Z) : nat * list Z :=
  match s with
  | [] => (0%nat, [])
  | c :: r =>
      if isDigit c then let '(n, r) := float_digits true r in (S n, r)
      else if started && (c =? 95) then float_digits true r
      else (0%nat, s)
  end.

(** the exponent, up to the end of the text *)
Definition float_exponent (s : list Z) : bool :=
  match s with
  | [] => true
  | [_] => false
  | e :: r =>
      ((e =? 101) || (e =? 69)) &&
      let r := match r with c :: r' => if (c =? 43) || (c =? 45) then r' else r | [] => r end in
      match float_digits false r with
      | (S _, []) => true
      | _ => false
      end
  end.

Definition parseFloat_ok (s : list Z) : bool :=
  let '(has_sign, s) := match s with
                        | c :: r => if (c =? 43) || (c =? 45) then (true, r) else (false, s)
                        | [] => (false, s)
                        end in
  if bool_decide (map toLower s = bytes_of "nan") || bool_decide (map toLower s = bytes_of "inf") then true
  else
    let '(kdigits, r) := float_digits false s in
    match r with
    | c :: r' =>
        if c =? 46 then float_exponent (float_digits false r').2
        else (0 <? kdigits)%nat && float_exponent r
    | [] => (0 <? kdigits)%nat
    end.

(** 113-121 *)
Record fstate := FState {
  fs_value : Z; fs_frac : bool; fs_level : Z; fs_exp : bool; fs_exp_sign : option bool; fs_exponent : Z
}.

Section Float.
  Context (fa : float_arith).
  Definition f_digit (c : Z) : Z := f_int fa (c - 48).

  (** 142-167 *)
  Fixpoint float_loop (is_american : bool) (s : list Z) (st : fstate) : res fstate :=
    match s with
    | [] => Ok st
    | ch :: rest =>
        if isDigit ch then
          if fs_exp st then
            match fs_exp_sign st with
            | None => Err ValueError
            | Some _ => float_loop is_american rest
                (FState (fs_value st) (fs_frac st) (fs_level st) true (fs_exp_sign st)
                   (f_add fa (f_mul fa (fs_exponent st) (f_int fa 10)) (f_digit ch)))
            end
          else if fs_frac st then
            let level := f_mul fa (fs_level st) (f_tenth fa) in
            float_loop is_american rest
              (FState (f_add fa (fs_value st) (f_mul fa (f_digit ch) level)) true level false
                 (fs_exp_sign st) (fs_exponent st))
          else
            float_loop is_american rest
              (FState (f_add fa (f_mul fa (fs_value st) (f_int fa 10)) (f_digit ch)) false (fs_level st) false
                 (fs_exp_sign st) (fs_exponent st))
        else if (ch =? 44) && is_american || (ch =? 46) && negb is_american then
          if (zlen s <? 4) || fs_frac st then Err ValueError else float_loop is_american rest st
        else if (ch =? 46) && is_american || (ch =? 44) && negb is_american then
          if fs_frac st then Err ValueError
          else float_loop is_american rest
                 (FState (fs_value st) true (fs_level st) (fs_exp st) (fs_exp_sign st) (fs_exponent st))
        else if fs_frac st && (toLower ch =? 101) && negb (fs_exp st) then
          float_loop is_american rest
            (FState (fs_value st) true (fs_level st) true (fs_exp_sign st) (fs_exponent st))
        else if fs_frac st && ((ch =? 43) || (ch =? 45)) && fs_exp st then
          float_loop is_american rest
            (FState (fs_value st) true (fs_level st) true (Some (ch =? 43)) (fs_exponent st))
        else Err ValueError
    end.

  (** 169-174 *)
  Definition float_end (negative : bool) (st : fstate) : res Z :=
    let value := f_mul fa (fs_value st) (f_int fa (if negative then -1 else 1)) in
    if fs_exp st then
      match fs_exp_sign st with
      | None => Err ValueError
      | Some plus => Ok (f_mul fa value (f_pow10 fa (f_mul fa (fs_exponent st) (f_int fa (if plus then 1 else -1)))))
      end
    else Ok (f_mul fa value (f_int fa 1)).

  (** 97-174 *)
  Definition inferFloat (checks is_simple is_american : bool) (str : list Z) : res Z :=
    let start v frac := FState v frac (f_int fa 1) false None (f_int fa 0) in
    match no_blanks str with
    | [] => Err ValueError
    | first_char :: rest =>
        if is_simple then
          if parseFloat_ok (first_char :: rest) then Ok (f_parse fa (first_char :: rest)) else Err ValueError
        else if isDigit first_char then
          res_bind (float_loop is_american rest (start (f_digit first_char) false)) (float_end false)
        else if (first_char =? 43) || (first_char =? 45) then
          match rest with
          | [] => if checks then Err IndexError else Err ValueError
          | d :: rest =>
              if isDigit d then
                res_bind (float_loop is_american rest (start (f_digit d) false)) (float_end (first_char =? 45))
              else Err ValueError
          end
        else if (first_char =? 46) && is_american || (first_char =? 44) && negb is_american then
          res_bind (float_loop is_american rest (start (f_int fa 0) true)) (float_end false)
        else Err ValueError
    end.

  (** 176-187 *)
  Definition inferFloat_any (checks : bool) (str : list Z) : res Z :=
    or_else (inferFloat checks true false str)
      (or_else (inferFloat checks false false str) (inferFloat checks false true str)).

  (** ** Types: ranking.nim 54-86, paging.nim 277-330 *)
  Definition read (checks : bool) (t : ntype) (s : list Z) : res cell :=
    match t with
    | DT_NONE => res_map (λ _, CNone) (inferNone s)
    | DT_BOOL => res_map CBool (inferBool s)
    | DT_DATE_SHORT => res_map CDate (inferDate checks true false s)
    | DT_INT_SIMPLE => res_map CInt (inferInt checks true false s)
    | DT_INT_US => res_map CInt (inferInt checks false true s)
    | DT_INT_EU => res_map CInt (inferInt checks false false s)
    | DT_FLOAT_SIMPLE => res_map CFloat (inferFloat checks true false s)
    | DT_FLOAT_US => res_map CFloat (inferFloat checks false true s)
    | DT_FLOAT_EU => res_map CFloat (inferFloat checks false false s)
    | DT_DATETIME => res_map (λ p, CDateTime p.1 p.2) (inferDatetime checks false s)
    | DT_DATETIME_US => res_map (λ p, CDateTime p.1 p.2) (inferDatetime checks true s)
    | DT_DATE => res_map CDate (inferDate checks false false s)
    | DT_DATE_US => res_map CDate (inferDate checks false true s)
    | DT_TIME => res_map CTime (inferTime s)
    | DT_STRING => Ok (CStr s)
    end.

  (** ranking.nim 24-30, 52-94: the first type of the ranking that accepts; any
      exception but [ValueError] leaves the loop, the end of the ranking raises
      [ResourceExhaustedError] *)
  Fixpoint first_fit (fits : ntype → res cell) (i : nat) (r : nrank) : res (nat * (ntype * Z) * cell) :=
    match r with
    | [] => Err OtherError
    | e :: r =>
        match fits e.1 with
        | Ok c => Ok (i, e, c)
        | Err ValueError => first_fit fits (S i) r
        | Err x => Err x
        end
    end.

  (** ranking.nim 47-99 *)
  Definition updateRank_text (checks : bool) (r : nrank) (s : list Z) : res (ntype * nrank) :=
    res_map (λ '(index, e, _), (e.1, insertSort cmpDtypesStringless (<[index := (e.1, e.2 + 1)]> r)))
      (first_fit (λ t, read checks t s) 0 r).

  (** paging.nim 19-76.  The fields of the column, [None] if the row has too few;
      the length of the longest text and the ranking. *)
  Definition field_text (f : option (list Z)) : list Z := default [] f.
  Fixpoint collectPageInfo (checks : bool) (col : list (option (list Z))) (longest : Z) (r : nrank)
    : res (Z * nrank) :=
    match col with
    | [] => Ok (longest, r)
    | f :: col =>
        res_bind (updateRank_text checks r (field_text f)) (λ '(dt, r),
          collectPageInfo checks col
            (if bool_decide (dt = DT_STRING) then Z.max (runeLen (field_text f)) longest else longest) r)
    end.

  (** paging.nim 6-15, 79-89; which of the three ways to write whole numbers or floats is
      not used later and left out; [PG_BOOL] is never chosen *)
  Inductive page_type := PG_UNICODE | PG_INT | PG_FLOAT | PG_OBJECT | PG_DATE | PG_DATETIME | PG_DATE_SHORT.
  Definition isAnyInt (t : ntype) : bool := bool_decide (t ∈ [DT_INT_SIMPLE; DT_INT_US; DT_INT_EU]).
  Definition isAnyFloat (t : ntype) : bool := bool_decide (t ∈ [DT_FLOAT_SIMPLE; DT_FLOAT_US; DT_FLOAT_EU]).

  (** paging.nim 123-141 *)
  Definition first_page_type (t : ntype) : page_type :=
    if isAnyInt t then PG_INT else if isAnyFloat t then PG_FLOAT
    else match t with
         | DT_STRING => PG_UNICODE
         | DT_DATETIME | DT_DATETIME_US => PG_DATETIME
         | DT_DATE | DT_DATE_US => PG_DATE
         | DT_DATE_SHORT => PG_DATE_SHORT
         | _ => PG_OBJECT
         end.

  (** paging.nim 144-165 *)
  Definition overlap (p : page_type) (t : ntype) : page_type :=
    if (match p with PG_FLOAT => isAnyInt t | _ => false end) || bool_decide (t = DT_DATE_SHORT) then p
    else match p with
         | PG_INT => if isAnyFloat t then PG_FLOAT else PG_OBJECT
         | PG_DATE_SHORT => if isAnyFloat t then PG_FLOAT else if isAnyInt t then PG_INT else p
         | _ => PG_OBJECT
         end.

  (** paging.nim 112-165; [None]: no type yet; the end of the ranking raises *)
  Fixpoint page_type_loop (p : option page_type) (r : nrank) : res (option page_type) :=
    match r with
    | [] => Err OtherError
    | (t, count) :: r =>
        if count =? 0 then Ok p
        else match p with
             | None => if bool_decide (t = DT_STRING) then Ok (Some PG_UNICODE)
                       else page_type_loop (Some (first_page_type t)) r
             | Some p => page_type_loop (Some (overlap p t)) r
             end
    end.

  (** paging.nim 91-186: the type of the page and the ranking used to write it *)
  Definition dumpPageHeader (r : nrank) : res (page_type * nrank) :=
    let r := insertSort cmpDtypes r in
    res_bind (page_type_loop None r) (λ p,
      match p with
      | None => Err OtherError
      | Some PG_UNICODE => Ok (PG_UNICODE, r)
      | Some PG_INT => Ok (PG_INT, r)
      | Some PG_FLOAT => Ok (PG_FLOAT, r)
      | Some _ => Ok (PG_OBJECT, insertSort cmpDtypesStringless r)
      end).

  (** paging.nim 188-214 *)
  Definition only (which : ntype → bool) (fits : ntype → res cell) (t : ntype) : res cell :=
    if which t then fits t else Err ValueError.
  Definition read_by (fits : ntype → res cell) (r : nrank) : res cell := res_map snd (first_fit fits 0 r).

  (** numpy.nim 364-372: the padding of a text longer than [longest] wraps around and
      is 2^64 - n characters long: the file is never finished *)
  Definition padded_text (longest : Z) (s : list Z) : res cell :=
    if longest <? runeLen s then Err OtherError else Ok (CStr s).

  (** paging.nim 246-349: a field of the page; a missing field of a page of numbers
      would be pickled into the numbers *)
  Definition dump_field (checks : bool) (p : page_type) (longest : Z) (r : nrank) (f : option (list Z)) : res cell :=
    match p, f with
    | PG_UNICODE, _ => padded_text longest (field_text f)
    | PG_INT, Some s => read_by (only isAnyInt (λ t, read checks t s)) r
    | PG_FLOAT, Some s => read_by (only isAnyFloat (λ t, read checks t s)) r
    | PG_INT, None | PG_FLOAT, None => Err OtherError
    | _, Some s => read_by (λ t, read checks t s) r
    | _, None => Ok CNone
    end.

  Fixpoint dumpPageBody (checks : bool) (p : page_type) (longest : Z) (r : nrank) (col : list (option (list Z)))
    : res (list cell) :=
    match col with
    | [] => Ok []
    | f :: col =>
        res_bind (dump_field checks p longest r f) (λ c,
          res_map (cons c) (dumpPageBody checks p longest r col))
    end.

  (** text_reader.nim 44-98 (and [collectPageInfoTask] before it): one page of a column *)
  Definition import_page (checks : bool) (col : list (option (list Z))) : res (page_type * list cell) :=
    res_bind (collectPageInfo checks col 1 newRank) (λ '(longest, r),
    res_bind (dumpPageHeader r) (λ '(p, r),
    res_map (λ cs, (p, cs)) (dumpPageBody checks p longest r col))).
End Float.
