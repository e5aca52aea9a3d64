(** How dates, times and whole numbers are written in texts (lists of ASCII
    codes).  Knows nothing of tablite. *)
From Verif.Spec Require Export Npy.
Local Open Scope Z_scope.

Definition digit (c : Z) : Prop := 48 <= c <= 57.

(** decimal digits of [n], leading zeros allowed *)
Definition number (n : Z) (ds : list Z) : Prop := ds ≠ [] ∧ Forall digit ds ∧ digits_value ds = n.

(** exactly [k] digits *)
Definition number_of (k : nat) (n : Z) (ds : list Z) : Prop := number n ds ∧ length ds = k.

(** ** Dates *)
Inductive date_style := Iso | DayFirst | MonthFirst | Compact.

(** blank, full stop, hyphen, slash *)
Definition date_separator (c : Z) : Prop := c = 32 ∨ c = 46 ∨ c = 45 ∨ c = 47.

(** [2020-01-31], [31/1/2020], [01/31/2020], [20200131]; [sep] stands between the parts *)
Definition date_text (style : date_style) (sep : Z) (d : ymd) (s : list Z) : Prop :=
  ∃ y m n, number_of 4 (yy d) y ∧ number (mm d) m ∧ number (dd d) n ∧
    match style with
    | Iso => s = y ++ [sep] ++ m ++ [sep] ++ n
    | DayFirst => s = n ++ [sep] ++ m ++ [sep] ++ y
    | MonthFirst => s = m ++ [sep] ++ n ++ [sep] ++ y
    | Compact => length m = 2%nat ∧ length n = 2%nat ∧ s = y ++ m ++ n
    end.

Definition month_first (style : date_style) : bool := match style with MonthFirst => true | _ => false end.
Definition compact (style : date_style) : bool := match style with Compact => true | _ => false end.

(** a day beyond the twelfth of a December, the year written last *)
Definition late_december (style : date_style) (d : ymd) : Prop :=
  (style = DayFirst ∨ style = MonthFirst) ∧ mm d = 12 ∧ 12 < dd d.

(** ** Times *)

(** [HH:MM], [HH:MM:SS], [HH:MM:SS.fff] or [HH:MM:SS.ffffff]; in microseconds *)
Inductive clock : Z → list Z → Prop :=
| clock_hm h m hs ms : number_of 2 h hs → number_of 2 m ms →
    clock ((h * 60 + m) * 60000000) (hs ++ [58] ++ ms)
| clock_hms h m s hs ms ss : number_of 2 h hs → number_of 2 m ms → number_of 2 s ss →
    clock (((h * 60 + m) * 60 + s) * 1000000) (hs ++ [58] ++ ms ++ [58] ++ ss)
| clock_milli h m s f hs ms ss fs : number_of 2 h hs → number_of 2 m ms → number_of 2 s ss →
    number_of 3 f fs →
    clock (((h * 60 + m) * 60 + s) * 1000000 + f * 1000) (hs ++ [58] ++ ms ++ [58] ++ ss ++ [46] ++ fs)
| clock_micro h m s f hs ms ss fs : number_of 2 h hs → number_of 2 m ms → number_of 2 s ss →
    number_of 6 f fs →
    clock (((h * 60 + m) * 60 + s) * 1000000 + f) (hs ++ [58] ++ ms ++ [58] ++ ss ++ [46] ++ fs).

(** [HH], [HHMM] or [HHMMSS] *)
Inductive compact_clock : Z → list Z → Prop :=
| compact_h h hs : number_of 2 h hs → compact_clock (h * 3600000000) hs
| compact_hm h m hs ms : number_of 2 h hs → number_of 2 m ms →
    compact_clock ((h * 60 + m) * 60000000) (hs ++ ms)
| compact_hms h m s hs ms ss : number_of 2 h hs → number_of 2 m ms → number_of 2 s ss →
    compact_clock (((h * 60 + m) * 60 + s) * 1000000) (hs ++ ms ++ ss).

(** the difference to UTC: none, or a sign and [HH:MM], [HH:MM:SS] or
    [HH:MM:SS.ffffff] *)
Inductive zone : Z → list Z → Prop :=
| zone_none : zone 0 []
| zone_plus us s : clock us s → length s ≠ 12%nat → zone us (43 :: s)
| zone_minus us s : clock us s → length s ≠ 12%nat → zone (- us) (45 :: s).

(** a time of UTC *)
Definition time_text (us : Z) (s : list Z) : Prop :=
  (∃ local t off z, clock local t ∧ zone off z ∧ s = t ++ z ∧ us = local - off) ∨ compact_clock us s.

(** a date, a blank or [T], a time; nothing between if the date is [20200131] *)
Definition datetime_text (style : date_style) (sep : Z) (d : ymd) (us : Z) (s : list Z) : Prop :=
  ∃ date mark time, date_text style sep d date ∧ zlen date <= 10 ∧ time_text us time ∧
    s = date ++ mark ++ time ∧
    (mark = [32] ∨ mark = [84] ∨ mark = [] ∧ style = Compact) ∧
    (mark = [sep] → style = Compact).

(** the moment [us] microseconds after midnight of [d] as a date and a time of the day *)
Definition moment (d : ymd) (us : Z) (d' : ymd) (us' : Z) : Prop :=
  valid_ymd d' ∧ 0 <= us' < us_per_day ∧
  epoch_days d' * us_per_day + us' = epoch_days d * us_per_day + us.

(** ** Whole numbers *)

(** a group of digits and groups of three, each after [sep] *)
Inductive groups (sep : Z) : list Z → list Z → Prop :=
| groups_end : groups sep [] []
| groups_more g s ds : Forall digit g → length g = 3%nat → groups sep s ds →
    groups sep (sep :: g ++ s) (g ++ ds).

(** [n] written with [sep] between the thousands *)
Definition int_text (sep : Z) (n : Z) (s : list Z) : Prop :=
  ∃ sign g rest ds, g ≠ [] ∧ Forall digit g ∧ groups sep rest ds ∧ s = sign ++ g ++ rest ∧
    ((sign = [] ∨ sign = [43]) ∧ n = digits_value (g ++ ds)
     ∨ sign = [45] ∧ n = - digits_value (g ++ ds)).

(** [n] without separators *)
Definition whole_text (n : Z) (s : list Z) : Prop :=
  ∃ ds m, number m ds ∧ (s = ds ∧ n = m ∨ s = 45 :: ds ∧ n = - m).

(** [-12.50]: digits [a] before and [b] after the point *)
Definition decimal_text (a b s : list Z) : Prop :=
  a ≠ [] ∧ b ≠ [] ∧ Forall digit a ∧ Forall digit b ∧ (s = a ++ [46] ++ b ∨ s = 45 :: a ++ [46] ++ b).

(** a text without blanks and quotes *)
Definition without_blanks (s : list Z) : list Z := filter (λ c, c ≠ 32 ∧ c ≠ 34 ∧ c ≠ 39) s.

(** the remainder of [n] among the numbers of 64 bits *)
Definition wrapped (n w : Z) : Prop := - 2 ^ 63 <= w < 2 ^ 63 ∧ (2 ^ 64 | n - w).

Example int_text_test : int_text 44 (-1234567) [45; 49; 44; 50; 51; 52; 44; 53; 54; 55].
Proof.
  exists [45], [49], [44; 50; 51; 52; 44; 53; 54; 55], [50; 51; 52; 53; 54; 55].
  split; [done|]. split; [by repeat constructor|]. split.
  - apply (groups_more 44 [50; 51; 52] [44; 53; 54; 55] [53; 54; 55]); [by repeat constructor|done|].
    apply (groups_more 44 [53; 54; 55] [] []); [by repeat constructor|done|constructor].
  - split; [done|]. by right.
Qed.
