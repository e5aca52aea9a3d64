(** What a table written to a text file and read again may be expected to be. *)
From Verif.Model Require Export Export.
From Verif.Spec Require Export GuessedPage.
Local Open Scope Z_scope.

(** ** Texts *)

(** no blank before and no white space behind, if these are stripped *)
Definition trimmed (strip : bool) (f : list chr) : Prop :=
  strip = true → head f ≠ Some SPACE ∧ ∀ c, list.last f = Some c → ¬ white c.

(** a text that comes back: not too long, without the backslash; with quotes without line feeds and tabs,
    without quotes such that none are written *)
Definition comes_back (quotes strip : bool) (d : chr) (alone : bool) (f : list chr) : Prop :=
  zlen f <= 128 * 1024 ∧ BACKSLASH ∉ f ∧ trimmed strip f ∧
  if quotes then NL ∉ f ∧ TAB ∉ f else may_be_bare d 34 f ∧ (alone = true → f ≠ []).

(** a name that comes back: tabs and line ends are dropped from names *)
Definition name_comes_back (quotes strip : bool) (d : chr) (alone : bool) (f : list chr) : Prop :=
  comes_back quotes strip d alone f ∧ TAB ∉ f ∧ NL ∉ f ∧ CR ∉ f.

(** ** Values *)

(** values whose texts come back.  Python shows ints of at most 4300 digits. *)
Definition value_comes_back (fshow : Z → list Z) (quotes strip : bool) (d : chr) (alone : bool) (c : cell) : Prop :=
  match c with
  | CNone => quotes = false → alone = false
  | CBool _ => True
  | CInt n => Z.log2 (Z.abs n) < 14000
  | CFloat x => comes_back quotes strip d alone (fshow x)
  | CStr s => comes_back quotes strip d alone s
  | CDate day => python_date day
  | CTime us => 0 <= us < us_per_day
  | CDateTime day us => python_date day ∧ 0 <= us < us_per_day
  end.

(** values of a column of one kind that come back with guessed types *)
Definition told (parsed : list Z → Z) (fshow : Z → list Z) (k : column_kind) (c : cell) : Prop :=
  k ≠ Words ∧ c = CNone ∨
  match k with
  | Dates => ∃ d, c = CDate d ∧ python_date d
  | Moments => ∃ d us, c = CDateTime d us ∧ python_date d ∧ 0 <= us < us_per_day
  | Times => ∃ us, c = CTime us ∧ 0 <= us < us_per_day
  | Bools => ∃ b, c = CBool b
  | Ints => ∃ n, c = CInt n ∧ - 2 ^ 63 < n < 2 ^ 63 ∧
      (- 10 ^ 6 < n < 10 ^ 7 ∨ 10 ^ 10 <= n ∨ n <= - 10 ^ 9)   (* 12345678 could be a date *)
  | Decimals => ∃ x, c = CFloat x ∧ plain_decimal (fshow x) ∧ parsed (fshow x) = x
  | Words => ∃ s, c = CStr s ∧ plain_word s
  | CompactDates => False
  end.

(** a column filled up with None to [n] values *)
Definition filled (n : nat) (l : list cell) : list cell := l ++ replicate (n - length l) CNone.

(** the contents of an imported table: its columns, pages joined *)
Definition imported (tbl : list (string * list (list cell))) : list (string * list cell) :=
  map (λ col, (col.1, concat col.2)) tbl.
