(** tablite/utils.py 172-386: [summary_statistics] and the summaries by type, with
    [_numeric_statistics_summary] of Model/Stats.v.  Lines are of utils.py.

    Arithmetic of numbers is exact (as in Model/Stats.v), but for times of the day, where the
    conversions to and from seconds round as floats do.  [var ** (1/2)] and the conversions between
    local time and POSIX timestamps are parameters.  Texts with a unit are kept as number and unit. *)
From Verif.Spec Require Export Summary Binary64.
From Verif.Model Require Export Stats Dict.
Local Open Scope Z_scope.

(** 241, 243, 248-257, 265-269: [iqr_low] ([k = 1]) and [iqr_high] ([k = 3]); [total_cnt * k / 4] is
    compared after multiplication by 4 *)
Record iqr_acc := IqrAcc { i_cnt : Z; i_prev : option Q; i_val : Q }.
Definition iqr_step (k total_cnt : Z) (s : iqr_acc) (e : Q * Z) : res iqr_acc :=
  let '(vx, cx) := e in
  let cnt_0 := i_cnt s in
  let cnt_n := cnt_0 + cx in
  let next := IqrAcc cnt_n (Some vx) in
  if (4 * cnt_0 <? k * total_cnt) && (k * total_cnt <? 4 * cnt_n) then Ok (next vx)
  else if 4 * cnt_0 =? k * total_cnt then
    let delta := (k * (total_cnt - 1)) mod 4 in
    match i_prev s with
    | Some v0 => Ok (next ((v0 * inject_Z (4 - delta) + vx * inject_Z delta) / 4)%Q)
    | None => Err TypeError
    end
  else Ok (next (i_val s)).
Definition iqr_of (k : Z) (vc : list (Q * Z)) : res Q :=
  let total_cnt := fold_right Z.add 0 (map snd vc) in
  res_map i_val (fold_left (λ acc e, res_bind acc (λ s, iqr_step k total_cnt s e)) (py_sort vc_leb vc) (Ok (IqrAcc 0 None 0))).

(** the first of those with the greatest number *)
Definition first_best {A} (l : list (A * Z)) : option (A * Z) :=
  fold_left (λ best e, match best with
                       | None => Some e
                       | Some b => if b.2 <? e.2 then Some e else Some b
                       end) l None.

(** an entry of the result *)
Inductive stat := NA | Num (x : Q) | Val (v : value) | Chars (x : Q) | Days (x : Q) | Seconds (x : Q).
Record summary := Summary {
  s_min : stat; s_max : stat; s_mean : stat; s_median : stat; s_stdev : stat; s_mode : stat;
  s_iqr_low : stat; s_iqr_high : stat; s_iqr : stat; s_sum : stat
}.
Record report := Report { r_summary : summary; r_distinct : Z; r_type : vtype; r_histogram : list (value * Z) }.

Section Summary.
  (** [root x] is [x ** (1/2)]; [stamp d us] is [datetime.timestamp()], [unstamp] is [datetime.fromtimestamp] *)
  Context (root : Q → Q) (stamp : ymd → Z → Q) (unstamp : Q → res (ymd * Z)).

  (** 233-298 *)
  Record numbers := Numbers {
    n_min : Q; n_max : Q; n_mean : Q; n_median : Q; n_stdev : Q; n_mode : Q; n_low : Q; n_high : Q; n_iqr : Q; n_sum : Q
  }.
  Definition numeric (vc : list (Q * Z)) : res numbers :=
    res_bind (numeric_summary vc) (λ s,
      match st_median s, st_mode s with
      | Some median, Some mode =>
          res_bind (iqr_of 1 vc) (λ low, res_map (λ high,
            Numbers (st_min s) (st_max s) (st_mean s) median (root (st_var s)) mode low high (high - low)%Q (st_sum s))
            (iqr_of 3 vc))
      | _, _ => Err OtherError
      end).

  (** 301-302: [distinct], [summary type] and [histogram] are replaced *)
  Definition none_summary : summary := Summary NA NA NA NA NA NA NA NA NA NA.
  Definition plain_summary (n : numbers) : summary :=
    Summary (Num (n_min n)) (Num (n_max n)) (Num (n_mean n)) (Num (n_median n)) (Num (n_stdev n)) (Num (n_mode n))
      (Num (n_low n)) (Num (n_high n)) (Num (n_iqr n)) (Num (n_sum n)).

  (** 305-317 *)
  Definition as_bool (x : Q) : stat :=
    if Qeq_bool x 1 then Val (BoolV true) else if Qeq_bool x 0 then Val (BoolV false) else Num x.
  Definition bool_summary (n : numbers) : summary :=
    Summary (as_bool (n_min n)) (as_bool (n_max n)) (Num (n_mean n)) (as_bool (n_median n)) (Num (n_stdev n)) (as_bool (n_mode n))
      (Num (n_low n)) (Num (n_high n)) (Num (n_iqr n)) (Num (n_sum n)).

  (** 320-325: [v.seconds], where [v] is the list *)
  Definition delta_summary (v : list value) : res summary :=
    match v with [] => Err IndexError | _ => Err AttributeError end.

  (** 328-336; the keys are converted in the order of [d] *)
  Definition moment (x : Q) : res stat := res_map (λ p, Val (DateTimeV p.1 p.2)) (unstamp x).
  Definition days (x : Q) : stat := Days (x / inject_Z 86400).
  Definition datetime_summary (n : numbers) : res summary :=
    res_bind (moment (n_min n)) (λ mn, res_bind (moment (n_max n)) (λ mx, res_bind (moment (n_mean n)) (λ me,
    res_bind (moment (n_median n)) (λ md, res_bind (moment (n_mode n)) (λ mo, res_bind (moment (n_low n)) (λ lo,
    res_map (λ hi, Summary mn mx me md (days (n_stdev n)) mo lo hi (days (n_iqr n)) (days (n_sum n))) (moment (n_high n)))))))).

  (** 340: [sum((t.hour * 60 * 60, t.minute * 60, t.second, t.microsecond / 1e6))] *)
  Definition seconds_of (us : Z) : Q := this (fl (inject_Z (us / 1000000) + this (fl (inject_Z (us mod 1000000) / inject_Z 1000000)))).
  (** 344-352 *)
  Definition time_of (x : Q) : res stat :=
    let hours := Qfloor (x / inject_Z 3600) in
    let x := this (fl (x - inject_Z (hours * 3600))) in
    let minutes := Qfloor (x / inject_Z 60) in
    let x := this (fl (x - inject_Z (minutes * 60))) in
    let seconds := qtrunc x in
    let us := qtrunc (this (fl (inject_Z 1000000 * this (fl (x - inject_Z seconds))))) in
    if (0 <=? hours) && (hours <? 24) && (0 <=? minutes) && (minutes <? 60) && (0 <=? seconds) && (seconds <? 60)
       && (0 <=? us) && (us <? 1000000)
    then Ok (Val (TimeV (((hours * 60 + minutes) * 60 + seconds) * 1000000 + us))) else Err ValueError.
  (** 339-357 *)
  Definition time_summary (n : numbers) : res summary :=
    res_bind (time_of (n_min n)) (λ mn, res_bind (time_of (n_max n)) (λ mx, res_bind (time_of (n_mean n)) (λ me,
    res_bind (time_of (n_median n)) (λ md, res_map (λ mo,
      Summary mn mx me md (Seconds (n_stdev n)) mo (Num (n_low n)) (Num (n_high n)) (Seconds (n_iqr n)) (Seconds (n_sum n)))
      (time_of (n_mode n)))))).

  (** 360-370 *)
  Definition day (x : Q) : res stat := res_map (λ p, Val (DateV p.1)) (unstamp x).
  Definition date_summary (n : numbers) : res summary :=
    res_bind (day (n_min n)) (λ mn, res_bind (day (n_max n)) (λ mx, res_bind (day (n_mean n)) (λ me,
    res_bind (day (n_median n)) (λ md, res_map (λ mo,
      Summary mn mx me md (days (n_stdev n)) mo (Num (n_low n)) (Num (n_high n)) (days (n_iqr n)) (days (n_sum n)))
      (day (n_mode n)))))).

  (** 376-377: [sorted(zip(v, c), key=lambda t: t[1], reverse=True)[0]]: the sort is stable *)
  Definition text_mode (h : list (value * Z)) : option value := fst <$> first_best h.
  (** 373-384 *)
  Definition string_summary (n : numbers) (mode : value) : summary :=
    Summary (Chars (n_min n)) (Chars (n_max n)) (Chars (n_mean n)) (Chars (n_median n)) (Chars (n_stdev n)) (Val mode)
      (Chars (n_low n)) (Chars (n_high n)) (Chars (n_iqr n)) (Chars (n_sum n)).

  (** the numbers of a type: 306, 329, 340, 361, 374 *)
  Definition number_of_value (v : value) : Q :=
    match v with
    | BoolV b => if b then 1 else 0
    | IntV n => inject_Z n
    | FloatV x => x
    | StrV s => inject_Z (zlen s)
    | DateV d => stamp d 0
    | DateTimeV d us => stamp d us
    | TimeV us => seconds_of us
    | _ => 0
    end.

  (** 387-398, 224-225: [summary_methods.get(dtype, int)]; [int(v, c)] is a TypeError *)
  Definition summary_of (t : vtype) (h : list (value * Z)) : res summary :=
    let vc := map (λ e, (number_of_value e.1, e.2)) h in
    match t with
    | NoneT => Ok none_summary
    | BoolT => res_map bool_summary (numeric vc)
    | IntT | FloatT => res_map plain_summary (numeric vc)
    | StrT => res_bind (numeric vc) (λ n, match text_mode h with Some m => Ok (string_summary n m) | None => Err IndexError end)
    | DateT => res_bind (numeric vc) date_summary
    | DateTimeT => res_bind (numeric vc) datetime_summary
    | TimeT => res_bind (numeric vc) time_summary
    | DeltaT => delta_summary (map fst h)
    | OtherT => Err TypeError
    end.

  (** 205-219: the type with most values, of several the one met first *)
  Definition type_totals (h : list (value * Z)) : list (vtype * Z) :=
    fold_left (λ d e, dset d (vtype_of e.1) (dget_or d (vtype_of e.1) 0 + e.2)) h [].

  (** 188-230; [None] is the empty dict *)
  Definition summary_statistics (h : list (value * Z)) : res (option report) :=
    let totals := type_totals h in
    if negb (existsb (λ e, 0 <? e.2) totals) then Ok None else
    match fst <$> first_best totals with
    | None => Ok None
    | Some t =>
        res_map (λ s, Some (Report s (zlen h) t h)) (summary_of t (filter (λ e, vtype_of e.1 = t) h))
    end.
End Summary.
