(** nimlite/infertypes.nim without floats; dateutils.nim 119-127 and pytypes.nim
    20-45 as they are used there.  Lines without a file are of infertypes.nim.

    A string is the list of its bytes.  [checks]: the code is built with the checks
    of ranges, bounds and overflow (build_nim.sh: [--debug]) or without them (the
    release build, [-d:danger]): there a number beyond 64 bits wraps, and reading
    one past a string gives its terminating NUL.  [Err ValueError] is the
    exception the callers expect, [Err IndexError] an access out of bounds (in the
    release build a write past the array), [Err OtherError] any other exception
    or defect. *)
From Coq Require Import String.
From Verif.Spec Require Export TypedText.
From Verif.Model Require Export Npy.
Local Open Scope Z_scope.

(** std/unicode [runeLen]: the length of a character by its first byte *)
Definition runeLenAt (b : Z) : nat :=
  if b <=? 127 then 1
  else if b / 32 =? 6 then 2
  else if b / 16 =? 14 then 3
  else if b / 8 =? 30 then 4
  else if b / 4 =? 62 then 5
  else if b / 2 =? 126 then 6
  else 1.
Fixpoint runeLen_loop (fuel : nat) (s : list Z) : Z :=
  match fuel, s with
  | S fuel, b :: _ => 1 + runeLen_loop fuel (drop (runeLenAt b) s)
  | _, _ => 0
  end.
Definition runeLen (s : list Z) : Z := runeLen_loop (List.length s) s.

(** 11-14 *)
Definition inferNone (s : list Z) : res unit :=
  if bool_decide (s ∈ [bytes_of "null"; bytes_of "Null"; bytes_of "NULL"; bytes_of "#N/A"; bytes_of "#n/a";
                       []; bytes_of "None"]) then Ok () else Err ValueError.

(** 16-24; ASCII letters *)
Definition inferBool (s : list Z) : res bool :=
  let sstr := map toLower s in
  if bool_decide (sstr = bytes_of "true") then Ok true
  else if bool_decide (sstr = bytes_of "false") then Ok false
  else Err ValueError.

(** ** Whole numbers: 26-95 *)

(** 64 bits *)
Definition wrap64 (n : Z) : Z := (n + 2 ^ 63) mod 2 ^ 64 - 2 ^ 63.
Definition int_ (checks : bool) (n : Z) : res Z :=
  if (- 2 ^ 63 <=? n) && (n <? 2 ^ 63) then Ok n else if checks then Err OtherError else Ok (wrap64 n).

(** 61-81; [after]: [chars_after] if [count_chars] *)
Definition bad_group (after : option Z) : bool :=
  match after with Some n => negb (n =? 3) | None => false end.
Fixpoint int_loop (checks : bool) (is_american : bool) (s : list Z) (value : Z) (after : option Z) : res Z :=
  match s with
  | [] => if bad_group after then Err ValueError else Ok value
  | ch :: rest =>
      if isDigit ch then
        res_bind (int_ checks (value * 10 + (ch - 48))) (λ value,
          int_loop checks is_american rest value (Z.succ <$> after))
      else if (ch =? 44) && is_american || (ch =? 46) && negb is_american then
        if (zlen s <? 4) || bad_group after then Err ValueError
        else int_loop checks is_american rest value (Some 0)
      else Err ValueError
  end.

(** 27-31 [multiReplace] *)
Definition no_blanks (s : list Z) : list Z := filter (λ c, c ≠ 34 ∧ c ≠ 39 ∧ c ≠ 32) s.

(** 26-82 *)
Definition inferInt (checks is_simple is_american : bool) (str : list Z) : res Z :=
  let sstr := no_blanks str in
  match sstr with
  | [] => Err ValueError
  | first_char :: rest =>
      if is_simple then parseInt sstr
      else if isDigit first_char then int_loop checks is_american rest (first_char - 48) None
      else if (first_char =? 43) || (first_char =? 45) then
        match rest with
        | [] => if checks then Err IndexError else Err ValueError
        | first_digit :: rest =>
            if isDigit first_digit then
              res_bind (int_loop checks is_american rest (first_digit - 48) None) (λ value,
                int_ checks (value * (if first_char =? 43 then 1 else -1)))
            else Err ValueError
        end
      else Err ValueError
  end.

(** [except ValueError] *)
Definition or_else {A} (a b : res A) : res A :=
  match a with Err ValueError => b | a => a end.

(** 84-95 *)
Definition inferInt_any (checks : bool) (str : list Z) : res Z :=
  or_else (inferInt checks true false str)
    (or_else (inferInt checks false false str) (inferInt checks false true str)).

(** ** Dates: 189-363 *)
Inductive short_date := DONT_CARE | NEVER | REQUIRED.

(** 190 *)
Definition accepted_token (c : Z) : bool := (c =? 32) || (c =? 46) || (c =? 45) || (c =? 47).

(** 199-218 *)
Fixpoint has_tokens (allow_time : bool) (s : list Z) : res bool :=
  match s with
  | [] => Ok false
  | ch :: s =>
      if isDigit ch then has_tokens allow_time s
      else if accepted_token ch then Ok true
      else if ((ch =? 58) || (ch =? 84)) && allow_time then has_tokens allow_time s
      else Err ValueError
  end.

(** 224-254.  [cur] are the characters from [slice_start] to [idx - 1]; the result
    are the substrings, [cur] and the string from [idx] on.  A fourth substring
    would be written beyond the array. *)
Fixpoint date_loop (allow_time : bool) (s cur : list Z) (was_digit : bool) (active : option Z)
  (words : list (list Z)) : res (list (list Z) * list Z * list Z) :=
  match s with
  | [] => Ok (words, cur, [])
  | ch :: rest =>
      if isDigit ch then
        date_loop allow_time rest (if was_digit then cur ++ [ch] else [ch]) true active words
      else if bool_decide (active = None ∨ active = Some ch) then
        if (3 <=? List.length words)%nat then Err IndexError
        else date_loop allow_time rest (cur ++ [ch]) false (Some ch) (words ++ [cur])
      else if (List.length words =? 2)%nat && allow_time && ((ch =? 32) || (ch =? 84)) then Ok (words, cur, s)
      else Err ValueError
  end.

(** 233-234: dates start with a digit *)
Definition starts_with_digit (s : list Z) : bool :=
  match s with ch :: _ => isDigit ch | [] => true end.

(** 189-271: the three substrings and the rest of the string *)
Definition parseDateWords (str : list Z) (is_short : short_date) (allow_time : bool)
  : res (list Z * list Z * list Z * list Z) :=
  if negb (runeLen str =? zlen str) then Err ValueError
  else
    res_bind (has_tokens allow_time (take 5 str)) (λ tokens,
      if tokens : bool then
        match is_short with
        | REQUIRED => Err ValueError
        | _ =>
            if starts_with_digit str then
              res_bind (date_loop allow_time str [] false None []) (λ '(words, cur, rest),
                match words, cur with
                | [w0; w1], _ :: _ => Ok (w0, w1, cur, rest)
                | _, _ => Err ValueError
                end)
            else Err ValueError
        end
      else if (zlen str <? 8) || match is_short with NEVER => true | _ => false end then Err ValueError
      else Ok (take 4 str, take 2 (drop 4 str), take 2 (drop 6 str), drop 8 str)).

(** 273-321 *)
Definition guessDate (w0 w1 w2 : list Z) (is_american : bool) : res (Z * Z * Z) :=
  if zlen w0 =? 4 then
    res_bind (parseInt w0) (λ year, res_bind (parseInt w1) (λ a, res_bind (parseInt w2) (λ b,
      if is_american then Err ValueError else Ok (year, a, b))))
  else if zlen w2 =? 4 then
    res_bind (parseInt w2) (λ year, res_bind (parseInt w0) (λ a, res_bind (parseInt w1) (λ b,
      if (a <=? 0) || (b <=? 0) || (12 <? a) && (12 <? b) then Err ValueError
      else if (a <=? 12) && (b <=? 12) then Ok (if is_american then (year, a, b) else (year, b, a))
      else if a <? 12 then if is_american then Ok (year, a, b) else Err ValueError
      else if b <? 12 then if is_american then Err ValueError else Ok (year, b, a)
      else Err ValueError)))
  else Err ValueError.

(** dateutils.nim 16 *)
Definition getDaysInMonth (year month : Z) : Z :=
  List.nth (Z.to_nat (month - 1)) (DAYS_PER_MONTH (isLeapYear year)) 0.

(** 336, dateutils.nim 119-120: [MonthdayRange] is checked or not; [dateTime]
    counts the days, so that day 0 is the last day of the month before *)
Definition newPyDate (checks : bool) (y m d : Z) : res ymd :=
  if 1 <=? d then Ok (Ymd y m d)
  else if checks then Err OtherError
  else Ok (date_of_days (epoch_days (Ymd y m d))).

(** 323-338 *)
Definition wordsToDate (checks : bool) (w0 w1 w2 : list Z) (is_american : bool) : res ymd :=
  res_bind (guessDate w0 w1 w2 is_american) (λ '(year, month, day),
    if (year <? 0) || (9999 <? year) then Err ValueError
    else if (month <? 1) || (12 <? month) then Err ValueError
    else if (getDaysInMonth year month <? day) || (day <? 0) then Err ValueError
    else newPyDate checks year month day).

(** 340-350; [is_short] and [is_american] are not both true *)
Definition inferDate (checks is_short is_american : bool) (str : list Z) : res ymd :=
  let str_len := runeLen str in
  if (10 <? str_len) || (str_len <? 8) then Err ValueError
  else
    res_bind (parseDateWords str (if is_short then REQUIRED else NEVER) false) (λ '(w0, w1, w2, _),
      wordsToDate checks w0 w1 w2 is_american).

(** [except:] *)
Definition or_any {A} (a b : res A) : res A :=
  match a with Err _ => b | a => a end.

(** 352-363 *)
Definition inferDate_any (checks : bool) (str : list Z) : res ymd :=
  or_any (inferDate checks false false str)
    (or_any (inferDate checks false true str) (inferDate checks true false str)).

(** ** Times: 365-468 *)

(** 374-379: two characters *)
Definition time_comp (s : list Z) : res (Z * list Z) :=
  match s with
  | a :: b :: rest => res_map (λ v, (v, rest)) (parseInt [a; b])
  | _ => Err ValueError
  end.

(** 373-391: up to [n + 1] components *)
Fixpoint time_comps (n : nat) (s : list Z) : res (list Z * list Z) :=
  res_bind (time_comp s) (λ '(v, s),
    match n, s with
    | _, [] | O, _ => Ok ([v], s)
    | S n, next_char :: s =>
        if next_char =? 58 then res_map (λ '(vs, s), (v :: vs, s)) (time_comps n s) else Err ValueError
    end).

(** 393-405 *)
Definition time_fraction (s : list Z) : res Z :=
  match s with
  | [] => Ok 0
  | c :: f =>
      if c =? 46 then
        if (zlen f =? 3) || (zlen f =? 6) then
          res_map (λ v, if zlen f =? 3 then v * 1000 else v) (parseInt f)
        else Err ValueError
      else Err ValueError
  end.

(** conversions to [uint8] and [uint32] wrap *)
Definition uint8 (v : Z) : Z := v mod 256.
Definition uint32 (v : Z) : Z := v mod 2 ^ 32.

(** 365-407 *)
Definition parse_hh_mm_ss_ff (s : list Z) : res (Z * Z * Z * Z) :=
  res_bind (time_comps 2 s) (λ '(vs, s),
  res_map (λ us, (uint8 (List.nth 0 vs 0), uint8 (List.nth 1 vs 0), uint8 (List.nth 2 vs 0), uint32 us))
    (time_fraction s)).

(** pytypes.nim 33-38: with a time zone *)
Definition newPyTime_tz (h mi s us tz_days tz_seconds tz_microseconds : Z) : Z :=
  newPY_Time h mi s us - ((tz_days * 86400 + tz_seconds) * 1000000 + tz_microseconds).

(** 416-431 *)
Definition infer_compact_time (s : list Z) : res Z :=
  if (zlen s =? 2) || (zlen s =? 4) || (zlen s =? 6) then
    res_bind (parseInt (take 2 s)) (λ hour,
    res_bind (if 4 <=? zlen s then parseInt (take 2 (drop 2 s)) else Ok 0) (λ minute,
    res_map (λ second, newPY_Time (uint8 hour) (uint8 minute) (uint8 second) 0)
      (if 6 <=? zlen s then parseInt (take 2 (drop 4 s)) else Ok 0)))
  else Err ValueError.

(** 433-445: the time, and the sign and text of the time zone *)
Definition split_zone (s : list Z) : res (list Z * option (Z * list Z)) :=
  match split_at 45 s, split_at 43 s with
  | Some _, Some _ => Err ValueError
  | None, Some (t, z) => Ok (t, Some (1, z))
  | Some (t, z), None => Ok (t, Some (-1, z))
  | None, None => Ok (s, None)
  end.

(** 409-468; microseconds *)
Definition inferTime (s : list Z) : res Z :=
  if zlen s <? 2 then Err ValueError
  else if bool_decide (58 ∉ s) then infer_compact_time s
  else
    res_bind (split_zone s) (λ '(timestr, tz),
    res_bind (parse_hh_mm_ss_ff timestr) (λ '(hour, minute, second, microsecond),
      match tz with
      | None => Ok (newPY_Time hour minute second microsecond)
      | Some (tz_sign, tzstr) =>
          if (zlen tzstr =? 5) || (zlen tzstr =? 8) || (zlen tzstr =? 15) then
            res_map (λ '(h, mi, sec, us),
                let '(tz_days, tz_seconds, tz_microseconds) :=
                  toTimedelta 0 0 (tz_sign * h) (tz_sign * mi) (tz_sign * sec) 0 (tz_sign * us) in
                newPyTime_tz hour minute second microsecond tz_days tz_seconds tz_microseconds)
              (parse_hh_mm_ss_ff tzstr)
          else Err OtherError
      end)).

(** pytypes.nim 22: the sum of a date and a duration *)
Definition newPyDateTime (d : ymd) (us : Z) : ymd * Z :=
  let t := epoch_days d * us_per_day + us in
  (date_of_days (t / us_per_day), t mod us_per_day).

(** 470-496 *)
Definition inferDatetime (checks is_american : bool) (str : list Z) : res (ymd * Z) :=
  let str_len := runeLen str in
  if (42 <? str_len) || (str_len <? 10) then Err ValueError
  else
    res_bind (parseDateWords str DONT_CARE true) (λ '(w0, w1, w2, rest),
      match rest with
      | [] => Err ValueError
      | first_tchar :: t =>
          if isDigit first_tchar || (first_tchar =? 32) || (first_tchar =? 84) then
            res_bind (wordsToDate checks w0 w1 w2 is_american) (λ date,
            res_map (newPyDateTime date) (inferTime (if isDigit first_tchar then rest else t)))
          else Err ValueError
      end).

(** 498-504 *)
Definition inferDatetime_any (checks : bool) (str : list Z) : res (ymd * Z) :=
  or_else (inferDatetime checks false str) (inferDatetime checks true str).
