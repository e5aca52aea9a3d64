(** nimlite/funcs/column_selector/casters.nim 122-243: the conversions of
    [column_select] between types, with nimlite/dateutils.nim 103-139, pytypes.nim
    31-87, pyobjs.nim 8-10 and the writers of dates and times of numpy.nim (928-997)
    and pickling.nim.  Lines without a file are of casters.nim.

    A value of Nim's [DateTime] is the number of microseconds since 1970; a cell is
    what Python sees.  Simplifications: whole numbers are unbounded ([int] of a float
    beyond 64 bits and of [nan] is whatever [ca_int] says; conversion of seconds to days
    divides floats, exact below 2^53); [yyyy] stands for the years 0 to
    9999; a time or a year out of range is an error also in the release build, which
    writes a wrong byte. *)
From Coq Require Import String.
From Verif.Model Require Export Guess.
Local Open Scope string_scope.
Local Open Scope list_scope.
Local Open Scope Z_scope.

(** The arithmetic of floats is a parameter; floats are given by their bits. *)
Record cast_arith := CastArith {
  ca_floats : float_arith;
  ca_ge1 : Z → bool;            (* [v >= 1] *)
  ca_int : Z → Z;               (* [int v] *)
  ca_fraction_us : Z → Z;       (* [int (frac * 1_000_000)], [frac] of [splitDecimal] *)
  ca_seconds : Z → Z;           (* [n / 1_000_000] of an int *)
  ca_text : Z → list Z          (* [$v] *)
}.

(** ** Nim's standard library *)

(** [$v] of an int *)
Definition int_show (n : Z) : list Z := (if n <? 0 then [45] else []) ++ uint_text (Z.abs n).

(** [n] with [k] digits *)
Fixpoint pad (k : nat) (n : Z) : list Z :=
  match k with O => [] | S k => pad k (n / 10) ++ [48 + n mod 10] end.

(** pyobjs.nim 8-10 *)
Definition fmtDate (t : Z) : list Z :=
  let d := date_of_days (t / us_per_day) in pad 4 (yy d) ++ [45] ++ pad 2 (mm d) ++ [45] ++ pad 2 (dd d).
Definition fmtTime (t : Z) : list Z :=
  let s := t mod us_per_day / 1000000 in pad 2 (s / 3600) ++ [58] ++ pad 2 (s / 60 mod 60) ++ [58] ++ pad 2 (s mod 60).
Definition fmtDateTime (t : Z) : list Z := fmtDate t ++ [32] ++ fmtTime t.

(** ** dateutils.nim *)

(** 103-117 *)
Definition delta2Date (seconds : Z) : Z :=
  let '(d, s, us) := toTimedelta 0 0 0 0 seconds 0 0 in
  epoch_days (date_of_days d) * us_per_day + (s * 1000000 + us).
(** 139 *)
Definition datetime2Date (t : Z) : Z := t / us_per_day * us_per_day.

Section Cast.
  Context (ca : cast_arith) (checks : bool).

  (** 130-133 *)
  Definition seconds2Duration (x : Z) : Z := ca_int ca x * 1000000 + ca_fraction_us ca x.

  (** ** Casters; the value is Nim's *)
  Inductive nvalue :=
  | NBool (b : bool) | NInt (n : Z) | NFloat (x : Z) | NStr (s : list Z)
  | NDate (t : Z) | NTime (t : Z) | NDateTime (t : Z).

  (** 132-140 *)
  Definition cast_int (k : kind) (v : Z) : res nvalue :=
    match k with
    | KBool => Ok (NBool (1 <=? v))
    | KInt => Ok (NInt v)
    | KFloat => Ok (NFloat (f_int (ca_floats ca) v))
    | KStr => Ok (NStr (int_show v))
    | KDate => Ok (NDate (datetime2Date (delta2Date v)))
    | KDateTime => Ok (NDateTime (delta2Date v))
    | KTime => Ok (NTime (seconds2Duration (f_int (ca_floats ca) v)))
    | KNone => Err ValueError
    end.

  (** 122-130 *)
  Definition cast_bool (k : kind) (v : bool) : res nvalue :=
    match k with
    | KBool => Ok (NBool v)
    | KStr => Ok (NStr (if v then bytes_of "True" else bytes_of "False"))
    | _ => cast_int k (if v then 1 else 0)
    end.

  (** 142-150, dateutils.nim 138 *)
  Definition cast_float (k : kind) (v : Z) : res nvalue :=
    match k with
    | KBool => Ok (NBool (ca_ge1 ca v))
    | KInt => Ok (NInt (ca_int ca v))
    | KFloat => Ok (NFloat v)
    | KStr => Ok (NStr (ca_text ca v))
    | KDate => Ok (NDate (datetime2Date (delta2Date (ca_int ca v))))
    | KDateTime => Ok (NDateTime (seconds2Duration v))
    | KTime => Ok (NTime (seconds2Duration v))
    | KNone => Err ValueError
    end.

  (** 152-160 *)
  Definition cast_date (k : kind) (t : Z) : res nvalue :=
    match k with
    | KBool => Ok (NBool (1 <=? inSeconds t))
    | KInt => Ok (NInt (inSeconds t))
    | KFloat => Ok (NFloat (f_int (ca_floats ca) (inSeconds t)))
    | KStr => Ok (NStr (fmtDate t))
    | KDate => Ok (NDate t)
    | KDateTime => Ok (NDateTime t)
    | KTime | KNone => Err ValueError
    end.

  (** 162-170 *)
  Definition cast_time (k : kind) (t : Z) : res nvalue :=
    match k with
    | KBool => Ok (NBool (1 <=? inSeconds t))
    | KInt => Ok (NInt (inSeconds t))
    | KFloat => Ok (NFloat (ca_seconds ca t))
    | KStr => Ok (NStr (fmtTime t))
    | KTime => Ok (NTime t)
    | KDate | KDateTime | KNone => Err ValueError
    end.

  (** 172-180, pytypes.nim 48 *)
  Definition cast_datetime (k : kind) (t : Z) : res nvalue :=
    match k with
    | KBool => Ok (NBool (1 <=? inSeconds t))
    | KInt => Ok (NInt (inSeconds t))
    | KFloat => Ok (NFloat (ca_seconds ca t))
    | KStr => Ok (NStr (fmtDateTime t))
    | KDate => Ok (NDate (datetime2Date t))
    | KDateTime => Ok (NDateTime t)
    | KTime => Ok (NTime t)
    | KNone => Err ValueError
    end.

  Definition date_us (d : ymd) (us : Z) : Z := epoch_days d * us_per_day + us.

  (** 182-200 *)
  Definition cast_str (k : kind) (s : list Z) : res nvalue :=
    let date := res_map (λ d, date_us d 0) (inferDate_any checks s) in
    let datetime := res_map (λ p, date_us p.1 p.2) (inferDatetime_any checks s) in
    match k with
    | KBool => res_map NBool (inferBool s)
    | KInt => res_map (λ x, NInt (ca_int ca x)) (inferFloat_any (ca_floats ca) checks s)
    | KFloat => res_map NFloat (inferFloat_any (ca_floats ca) checks s)
    | KStr => Ok (NStr s)
    | KDate => res_map NDate (or_else date datetime)
    | KDateTime => res_map NDateTime (or_else datetime date)
    | KTime => res_map NTime (inferTime s)
    | KNone => Err ValueError
    end.

  (** 202-243 *)
  Definition cast (k : kind) (v : cell) : res nvalue :=
    match v with
    | CNone => Err ValueError
    | CBool b => cast_bool k b
    | CInt n => cast_int k n
    | CFloat x => cast_float k x
    | CStr s => cast_str k s
    | CDate d => cast_date k (date_us d 0)
    | CTime us => cast_time k us
    | CDateTime d us => cast_datetime k (date_us d us)
    end.

  (** ** What is written *)

  (** dateutils.nim 12 *)
  Definition python_year (d : ymd) : bool := (1 <=? yy d) && (yy d <=? 9999).

  (** an array of Python objects: pytypes.nim 58-84 *)
  Definition as_object (v : nvalue) : res cell :=
    match v with
    | NBool b => Ok (CBool b)
    | NInt n => Ok (CInt n)
    | NFloat x => Ok (CFloat x)
    | NStr s => Ok (CStr s)
    | NDate t => let d := date_of_days (t / us_per_day) in if python_year d then Ok (CDate d) else Err OtherError
    | NDateTime t =>
        let d := date_of_days (t / us_per_day) in
        if python_year d then Ok (CDateTime d (t mod us_per_day)) else Err OtherError
    | NTime t =>
        if (0 <=? getHour t) && (0 <=? getMinute t) && (0 <=? getSecond t) && (0 <=? getMicrosecond t)
        then Ok (CTime (newPY_Time (getHour t) (getMinute t) (getSecond t) (getMicrosecond t)))
        else Err OtherError
    end.

  (** an array of numbers: numpy.nim 945-981; there is none of times *)
  Definition as_number (v : nvalue) : res cell :=
    match v with
    | NDate t => Ok (CDate (date_of_days (Z.quot t us_per_day)))
    | NDateTime t => Ok (CDateTime (date_of_days (t / us_per_day)) (t mod us_per_day))
    | _ => as_object v
    end.

  (** [objects]: the page holds objects, because values may be missing *)
  Definition convert (objects : bool) (k : kind) (v : cell) : res cell :=
    res_bind (cast k v) (if objects then as_object else as_number).
End Cast.
