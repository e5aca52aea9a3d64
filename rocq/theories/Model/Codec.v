(** tablite/datatypes.py 29-180 (values to bytes and back) and 374-455 (values to JSON and back).

    [fshow], [fread]: [str] of a float and [float] of a text.  [fl] is the rounding of every float
    operation.  [int], [fromisoformat] read the texts which [str], [isoformat] write; Python reads
    some more.  [str] of ints with more than 4300 digits, which new versions of Python refuse,
    numpy values ([pytype]) and other objects (pickle) are left out. *)
From Verif.Spec Require Export CodecValues.
From Coq Require Import DecimalString DecimalZ.
Local Open Scope Z_scope.

Definition txt (s : string) : text := list_ascii_of_string s.

(** ** Python's conversions of ints, dates and times *)
Definition int_show (z : Z) : text := txt (NilZero.string_of_int (Z.to_int z)).
Definition int_read (s : text) : option Z :=
  option_map Z.of_int (NilZero.int_of_string (string_of_list_ascii s)).

Definition digit (d : Z) : ascii := ascii_of_nat (48 + Z.to_nat d).
Definition digit_val (c : ascii) : option Z :=
  let n := nat_of_ascii c in if (48 <=? n)%nat && (n <=? 57)%nat then Some (Z.of_nat n - 48) else None.
(** ["%0kd" % n] for [0 <= n < 10^k] *)
Fixpoint pad (k : nat) (n : Z) : text :=
  match k with O => [] | S k => pad k (n / 10) ++ [digit (n mod 10)] end.
Fixpoint read_digits (acc : Z) (s : text) : option Z :=
  match s with
  | [] => Some acc
  | c :: s => match digit_val c with Some d => read_digits (acc * 10 + d) s | None => None end
  end.

Definition date_iso (d : ymd) : text := pad 4 (yy d) ++ txt "-" ++ pad 2 (mm d) ++ txt "-" ++ pad 2 (dd d).
Definition time_iso (t : tod) : text :=
  pad 2 (hh t) ++ txt ":" ++ pad 2 (mi t) ++ txt ":" ++ pad 2 (ss t) ++
  if us t =? 0 then [] else txt "." ++ pad 6 (us t).
Definition datetime_iso (d : ymd) (t : tod) : text := date_iso d ++ txt "T" ++ time_iso t.

Definition make_date (y m d : Z) : res ymd :=
  if (1 <=? y) && (y <=? 9999) && (1 <=? m) && (m <=? 12) && (1 <=? d) && (d <=? month_days y m)
  then Ok (Ymd y m d) else Err ValueError.
Definition make_time (h m s u : Z) : res tod :=
  if (h <? 24) && (m <? 60) && (s <? 60) then Ok (Tod h m s u) else Err ValueError.
(** [s[i:i+k]] as a number *)
Definition num_at (s : text) (i k : nat) : option Z := read_digits 0 (take k (drop i s)).
Definition char_at (s : text) (i : nat) (c : string) : bool := bool_decide (take 1 (drop i s) = txt c).

Definition date_from_iso (s : text) : res ymd :=
  if (length s =? 10)%nat && char_at s 4 "-" && char_at s 7 "-" then
    match num_at s 0 4, num_at s 5 2, num_at s 8 2 with
    | Some y, Some m, Some d => make_date y m d
    | _, _, _ => Err ValueError
    end
  else Err ValueError.
Definition time_from_iso (s : text) : res tod :=
  if char_at s 2 ":" && char_at s 5 ":" then
    match num_at s 0 2, num_at s 3 2, num_at s 6 2 with
    | Some h, Some m, Some sec =>
        if (length s =? 8)%nat then make_time h m sec 0
        else if (length s =? 15)%nat && char_at s 8 "." then
          match num_at s 9 6 with Some u => make_time h m sec u | None => Err ValueError end
        else Err ValueError
    | _, _, _ => Err ValueError
    end
  else Err ValueError.
(** the separator can be any character *)
Definition datetime_from_iso (s : text) : res (ymd * tod) :=
  res_bind (date_from_iso (take 10 s)) (λ d, res_map (λ t, (d, t)) (time_from_iso (drop 11 s))).

(** ** [timedelta(days, seconds)] with a float
    The integer part of the seconds is exact, the rest is multiplied by 1e6 and rounded. *)
Definition timedelta_new (days : Z) (seconds : Qc) : res cval :=
  let i := qtrunc seconds in
  let total := (days * 86400 + i) * 1000000 + rne (this (fl (1000000 * (this seconds - inject_Z i)))) in
  let d := total / 86400000000 in
  if (-999999999 <=? d) && (d <=? 999999999)
  then Ok (CDelta d (total / 1000000 mod 86400) (total mod 1000000)) else Err OtherError.

Section Codec.
  Context (fshow : fval → text) (fread : text → option fval).

  (** 32-45 *)
  Definition type_code (v : cval) : nat :=
    match v with
    | CNone => 1 | CBool _ => 2 | CInt _ => 3 | CFloat _ => 4 | CStr _ => 5 | CBytes _ => 6
    | CDatetime _ _ => 7 | CDate _ => 8 | CTime _ => 9 | CDelta _ _ _ => 10
    end.
  (** 57-110 *)
  Definition to_bytes (v : cval) : text :=
    match v with
    | CNone => txt "None"
    | CBool b => txt (if b then "True" else "False")
    | CInt z => int_show z
    | CFloat f => fshow f
    | CStr s => s
    | CBytes s => s
    | CDatetime d t => datetime_iso d t
    | CDate d => date_iso d
    | CTime t => time_iso t
    | CDelta days seconds _ =>
        (* 85: [str(float(v.days + (v.seconds / (24 * 60 * 60))))] *)
        fshow (Fin (fl (inject_Z days + this (fl (inject_Z seconds / 86400)))))
    end.
  Definition read_float (s : text) : res fval :=
    match fread s with Some f => Ok f | None => Err ValueError end.
  (** 143-146 *)
  Definition timedelta_of (v : text) : res cval :=
    res_bind (read_float v) (λ f,
      match f with
      | Fin d => let i := qtrunc d in timedelta_new i (fl (86400 * this (fl (this d - inject_Z i))))
      | NegZero => timedelta_new 0 (Q2Qc 0)
      | _ => Err OtherError
      end).
  (** 112-181; other codes: None *)
  Definition from_type_code (v : text) (code : nat) : res cval :=
    match code with
    | 1 => Ok CNone
    | 2 => Ok (CBool (bool_decide (v = txt "True")))
    | 3 => match int_read v with Some z => Ok (CInt z) | None => Err ValueError end
    | 4 => res_map CFloat (read_float v)
    | 5 => Ok (CStr v)
    | 6 => Ok (CBytes v)
    | 7 => res_map (λ x, CDatetime x.1 x.2) (datetime_from_iso v)
    | 8 => res_map CDate (date_from_iso v)
    | 9 => res_map CTime (time_from_iso v)
    | 10 => timedelta_of v
    | _ => Err KeyError
    end%nat.

  (** ** JSON *)
  Inductive json := JNull | JInt (z : Z) | JFloat (f : fval) | JStr (s : text).
  Inductive dtype := DNone | DBool | DInt | DFloat | DStr | DBytes | DDatetime | DDate | DTime | DDelta.
  Definition type_of (v : cval) : dtype :=
    match v with
    | CNone => DNone | CBool _ => DBool | CInt _ => DInt | CFloat _ => DFloat | CStr _ => DStr | CBytes _ => DBytes
    | CDatetime _ _ => DDatetime | CDate _ => DDate | CTime _ => DTime | CDelta _ _ _ => DDelta
    end.
  (** 375-409 *)
  Definition to_json (v : cval) : res json :=
    match v with
    | CNone => Ok JNull
    | CBool b => Ok (JStr (txt (if b then "True" else "False")))
    | CInt z => Ok (JInt z)
    | CStr s => Ok (JStr s)
    | CFloat f => Ok (JFloat f)
    | CDatetime d t => Ok (JStr (datetime_iso d t))
    | CTime t => Ok (JStr (time_iso t))
    | CDate d => Ok (JStr (date_iso d))
    | CDelta days seconds microseconds =>
        (* 407 *)
        Ok (JStr (txt "P" ++ int_show days ++ txt "DT" ++
             fshow (Fin (fl (inject_Z seconds + this (fl (inject_Z microseconds / 1000000))))) ++ txt "S"))
    | CBytes _ => Err TypeError
    end.

  (** line 29, [None] and [np.nan] apart *)
  Definition none_texts : list text := map txt ["null"; "Null"; "NULL"; "#N/A"; "#n/a"; ""; "None"]%string.

  (** [s.split("DT")] *)
  Fixpoint split_dt (acc s : text) : list text :=
    match s with
    | [] => [acc]
    | c :: s' =>
        match s' with
        | c' :: s'' => if decide (c = "D"%char ∧ c' = "T"%char) then acc :: split_dt [] s'' else split_dt (acc ++ [c]) s'
        | [] => [acc ++ [c]]
        end
    end.
  (** [s.lstrip(c)], [s.rstrip(c)] *)
  Fixpoint lstrip (x : ascii) (s : text) : text :=
    match s with c :: s' => if decide (c = x) then lstrip x s' else s | [] => [] end.
  Definition rstrip (x : ascii) (s : text) : text := reverse (lstrip x (reverse s)).

  (** [v in DataTypes.nones]; a nan is in the set if it is the very object [np.nan]: [nan_object] *)
  Definition in_nones (nan_object : bool) (v : json) : bool :=
    match v with
    | JNull => true
    | JStr s => bool_decide (s ∈ none_texts)
    | JFloat Nan => nan_object
    | _ => false
    end.
  (** 411-452 for the values that [to_json] gives for a value of the type; anything else: TypeError *)
  Definition from_json (nan_object : bool) (v : json) (d : dtype) : res cval :=
    if in_nones nan_object v then
      match d, v with
      | DStr, JStr [] => Ok (CStr [])
      | _, _ => Ok CNone
      end
    else
      match d, v with
      | DInt, JInt z => Ok (CInt z)
      | DStr, JStr s => Ok (CStr s)
      | DFloat, JFloat f => Ok (CFloat f)
      | DBool, JStr s => if decide (s = txt "False") then Ok (CBool false)
                         else if decide (s = txt "True") then Ok (CBool true) else Err ValueError
      | DDate, JStr s => res_map CDate (date_from_iso s)
      | DDatetime, JStr s => res_map (λ x, CDatetime x.1 x.2) (datetime_from_iso s)
      | DTime, JStr s => res_map CTime (time_from_iso s)
      | DDelta, JStr s =>
          match split_dt [] s with
          | l0 :: l1 :: _ =>
              match int_read (lstrip "P" l0) with
              | None => Err ValueError
              | Some days =>
                  res_bind (read_float (rstrip "S" l1)) (λ f,
                    match f with
                    | Fin q => timedelta_new days q
                    | NegZero => timedelta_new days (Q2Qc 0)
                    | _ => Err OtherError
                    end)
              end
          | _ => Err IndexError
          end
      | _, _ => Err TypeError
      end.
End Codec.
