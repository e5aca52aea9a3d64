(** nimlite/dateutils.nim lines 7-101, nimlite/utils.nim [divmod] (38-42).

    Integers are unbounded; [int(floor(x / y))] and [int(x / y)] divide as
    floats in the code and are exact here (true for |x| < 2^53). *)
From Verif.Spec Require Export Calendar.
Local Open Scope Z_scope.

(** utils.nim 38-42 *)
Definition divmod (x y : Z) : Z * Z := let z := x / y in (z, x - y * z).

(** dateutils.nim 7-10 *)
Definition DAYS_PER_MONTH (leap : bool) : list Z :=
  if leap then [31; 29; 31; 30; 31; 30; 31; 31; 30; 31; 30; 31]
  else [31; 28; 31; 30; 31; 30; 31; 31; 30; 31; 30; 31].

(** dateutils.nim 15; Nim's [mod] truncates *)
Definition isLeapYear (year : Z) : bool :=
  (Z.rem year 4 =? 0) && (negb (Z.rem year 100 =? 0) || (Z.rem year 400 =? 0)).

(** dateutils.nim 18-55 *)
Definition toTimedelta (weeks days hours minutes seconds milliseconds microseconds : Z) : Z * Z * Z :=
  let v_days := days + weeks * 7 in
  let v_seconds := seconds + (minutes * 60 + hours * 3600) in
  let v_microseconds := microseconds + milliseconds * 1000 in
  let d := v_days in
  let '(v_days, v_seconds) := divmod v_seconds (24 * 3600) in
  let d := d + v_days in
  let s := v_seconds in
  let '(v_seconds, v_microseconds) := divmod v_microseconds 1000000 in
  let '(v_days, v_seconds) := divmod v_seconds (24 * 3600) in
  let d := d + v_days in
  let s := s + v_seconds in
  let '(v_seconds, us) := divmod v_microseconds 1000000 in
  let s := s + v_seconds in
  let '(v_days, s) := divmod s (24 * 3600) in
  let d := d + v_days in
  (d, s, us).

(** dateutils.nim 57-64 *)
Definition extractUnit (d unit_ : Z) : Z * Z :=
  let '(idiv, imod) := divmod d unit_ in
  if imod <? 0 then (idiv - 1, imod + unit_) else (idiv, imod).

(** dateutils.nim 66-87; [int(a / b)] truncates: [Z.quot] *)
Definition days2YearsDays (days : Z) : Z * Z :=
  let days_per_400years := 400 * 365 + 100 - 4 + 1 in
  let tdays := days - (365 * 30 + 7) in
  let '(year, tdays) := extractUnit tdays days_per_400years in
  let year := 400 * year in
  let '(year, tdays) :=
    if 366 <=? tdays then
      let year := year + 100 * Z.quot (tdays - 1) (100 * 365 + 25 - 1) in
      let tdays := Z.rem (tdays - 1) (100 * 365 + 25 - 1) in
      if 365 <=? tdays then
        let year := year + 4 * Z.quot (tdays + 1) (4 * 365 + 1) in
        let tdays := Z.rem (tdays + 1) (4 * 365 + 1) in
        if 366 <=? tdays then
          (year + Z.quot (tdays - 1) 365, Z.rem (tdays - 1) 365)
        else (year, tdays)
      else (year, tdays)
    else (year, tdays) in
  (year + 2000, tdays).

(** dateutils.nim 93-99: the loop over the months; [None] = line 101 raises *)
Fixpoint month_loop (lengths : list Z) (i idays : Z) : option (Z * Z) :=
  match lengths with
  | [] => None
  | l :: lengths =>
      if idays <? l then Some (i + 1, idays + 1) else month_loop lengths (i + 1) (idays - l)
  end.

(** dateutils.nim 89-101 *)
Definition days2Components (days : Z) : option ymd :=
  let '(dts_year, idays) := days2YearsDays days in
  '(m, d) ← month_loop (DAYS_PER_MONTH (isLeapYear dts_year)) 0 idays;
  Some (Ymd dts_year m d).
