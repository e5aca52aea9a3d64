(** What may be expected of a page of texts imported with guessed types: every
    cell is a reading of its text. *)
From Verif.Model Require Export Guess.
From Verif.Spec Require Export TypedText.
Local Open Scope Z_scope.

Section Readings.
  Context (reads : ntype → list Z → res cell).

  Definition readable (t : ntype) (s : list Z) : Prop := ∃ c, reads t s = Ok c.

  (** some type but [DT_STRING], which takes everything, reads the text *)
  Definition typed (s : list Z) : Prop := ∃ t, t ≠ DT_STRING ∧ readable t s.
  Definition whole (s : list Z) : Prop :=
    readable DT_INT_SIMPLE s ∨ readable DT_INT_US s ∨ readable DT_INT_EU s.
  Definition numeric (s : list Z) : Prop :=
    whole s ∨ readable DT_FLOAT_SIMPLE s ∨ readable DT_FLOAT_US s ∨ readable DT_FLOAT_EU s.
  Definition short (s : list Z) : Prop := readable DT_DATE_SHORT s.

  (** a text that is not read is refused with [ValueError] *)
  Definition plain (s : list Z) : Prop := ∀ t e, reads t s = Err e → e = ValueError.

  (** no type reads one of the texts unless it is a string *)
  Definition some_type_unused (texts : list (list Z)) : Prop :=
    ∃ t, ∀ s, s ∈ texts → ¬ readable t s.

  (** the longest text has no type, or all texts have one *)
  Definition longest_untyped (texts : list (list Z)) : Prop :=
    (∀ s, s ∈ texts → typed s) ∨
    ∃ s, s ∈ texts ∧ ¬ typed s ∧ ∀ u, u ∈ texts → runeLen u <= runeLen s.

  (** dates like 20200131 are not mixed with other things *)
  Definition short_apart (texts : list (list Z)) : Prop :=
    (∀ s, s ∈ texts → ¬ short s) ∨
    (∀ s, s ∈ texts → numeric s ∧ (short s → whole s)) ∨
    (∀ s, s ∈ texts → numeric s → short s).

  (** a page of integers holds integers and so on *)
  Definition page_cell (p : page_type) (c : cell) : Prop :=
    match p with
    | PG_UNICODE => ∃ s, c = CStr s
    | PG_INT => ∃ n, c = CInt n
    | PG_FLOAT => ∃ b, c = CFloat b
    | _ => True
    end.

  Definition page_of_readings (col : list (option (list Z))) (p : page_type) (cs : list cell) : Prop :=
    Forall2 (λ f c, (∃ t, reads t (field_text f) = Ok c) ∧ page_cell p c) col cs.
End Readings.

(** ** Columns of one kind *)

(** a field that is empty or missing *)
Definition blank (f : option (list Z)) : Prop := f = None ∨ f = Some [].

(** [2020-01-31] or [31/01/2020]; other separators read as numbers too *)
Definition iso_or_day_first (style : date_style) (sep : Z) : Prop :=
  (style = Iso ∨ style = DayFirst) ∧ (sep = 45 ∨ sep = 47).

(** the cells of a column with gaps *)
Definition with_gaps (value : list Z → cell → Prop) (col : list (option (list Z))) (cells : list cell) : Prop :=
  Forall2 (λ f c, blank f ∧ c = CNone ∨ ∃ s, f = Some s ∧ value s c) col cells.

(** whole numbers of 64 bits *)
Definition int_value (s : list Z) (c : cell) : Prop :=
  ∃ n, whole_text n s ∧ - 2 ^ 63 < n < 2 ^ 63 ∧ c = CInt n.

(** too short or too long for a date like 20200131 *)
Definition not_compact (s : list Z) : Prop := zlen s < 8 ∨ 10 < zlen s.

(** decimals that are not read in another way: [12345678.9] starts like a compact date,
    [1.234] is a whole number with its thousands apart *)
Definition plain_decimal (s : list Z) : Prop :=
  ∃ a b, decimal_text a b s ∧ length a ≠ 8%nat ∧ length b ≠ 3%nat.

(** ** Words *)
Definition letter (c : Z) : Prop := 65 <= c <= 90 ∨ 97 <= c <= 122.
Definition lower (c : Z) : Z := if decide (65 <= c <= 90) then c + 32 else c.

(** true and false in capital or small letters *)
Definition bool_text (b : bool) (s : list Z) : Prop :=
  map lower s = if b then [116; 114; 117; 101] else [102; 97; 108; 115; 101].

(** null, Null, NULL, None *)
Definition none_words : list (list Z) :=
  [[110; 117; 108; 108]; [78; 117; 108; 108]; [78; 85; 76; 76]; [78; 111; 110; 101]].

(** a text that starts with a letter and is no word for something else: null, true,
    false, nan, inf *)
Definition plain_word (s : list Z) : Prop :=
  (∃ c r, s = c :: r ∧ letter c) ∧ s ∉ none_words ∧ (∀ b, ¬ bool_text b s) ∧
  map lower (without_blanks s) ≠ [110; 97; 110] ∧ map lower (without_blanks s) ≠ [105; 110; 102].

(** ** Columns of several pages *)
Inductive column_kind := Dates | CompactDates | Moments | Times | Bools | Ints | Decimals | Words.

(** the texts of a kind and what they mean; [parsed]: the number of a decimal *)
Definition value_of (parsed : list Z → Z) (k : column_kind) (s : list Z) (c : cell) : Prop :=
  match k with
  | Dates => ∃ style sep d, date_text style sep d s ∧ zlen s <= 10 ∧ iso_or_day_first style sep ∧
               valid_ymd d ∧ ¬ late_december style d ∧ c = CDate d
  | CompactDates => ∃ sep d, date_text Compact sep d s ∧ valid_ymd d ∧ c = CDate d
  | Moments => ∃ style sep d us d' us', datetime_text style sep d us s ∧ iso_or_day_first style sep ∧
                 valid_ymd d ∧ ¬ late_december style d ∧ moment d us d' us' ∧ c = CDateTime d' us'
  | Times => ∃ us t off z, clock us t ∧ zone off z ∧ s = t ++ z ∧ c = CTime (us - off)
  | Bools => ∃ b, bool_text b s ∧ c = CBool b
  | Ints => int_value s c ∧ not_compact s
  | Decimals => plain_decimal s ∧ c = CFloat (parsed s)
  | Words => plain_word s ∧ c = CStr s
  end.

(** a field of a column of the kind; columns of words have no gaps *)
Definition field_of (parsed : list Z → Z) (k : column_kind) (f : option (list Z)) (c : cell) : Prop :=
  k ≠ Words ∧ blank f ∧ c = CNone ∨ ∃ s, f = Some s ∧ value_of parsed k s c.

(** the [i]th page of at most [size] rows *)
Definition page_rows {A} (size i : nat) (rows : list A) : list A := take size (drop (i * size) rows).
