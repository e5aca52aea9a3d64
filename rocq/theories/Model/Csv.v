(** nimlite/funcs/text_reader/csvparse.nim: the character machine, the record
    iterator and the pre-scan.

    Simplifications: a file is the list of its characters after the byte order
    mark, one character = one position (UTF-8 bytes; files in other encodings:
    Model/EncFile.v); the growing buffers (parseGrowBuff 51-57,
    [fields.setLen] 84-85) are lists. *)
From Verif.Spec Require Export Base Csv.
Local Open Scope Z_scope.

(** csvparse.nim 9-11 *)
Inductive quoting := QUOTE_MINIMAL | QUOTE_ALL | QUOTE_NONNUMERIC | QUOTE_NONE | QUOTE_STRINGS | QUOTE_NOTNULL.
Global Instance quoting_eq_dec : EqDecision quoting.
Proof. solve_decision. Defined.

(** csvparse.nim 13-16 *)
Inductive pstate := START_RECORD | START_FIELD | ESCAPED_CHAR | IN_FIELD
  | IN_QUOTED_FIELD | ESCAPE_IN_QUOTED_FIELD | QUOTE_IN_QUOTED_FIELD | EAT_CRNL | AFTER_ESCAPED_CRNL.
Global Instance pstate_eq_dec : EqDecision pstate.
Proof. solve_decision. Defined.

(** csvparse.nim 18-27; [lineterminator] is never read by the parser. *)
Record dialect := Dialect {
  delimiter : chr; quotechar : chr; escapechar : chr;
  doublequote : bool; d_quoting : quoting;
  skipinitialspace : bool; skiptrailingspace : bool; strict : bool }.

(** csvparse.nim 30-40 and the local variable [state] of parseCSV (222):
    [r_field] is [field[0..<fieldLen]], [r_fields] is [fields[0..<fieldCount]]. *)
Record reader := Reader {
  r_state : pstate; r_field : list chr; r_fields : list (list chr); r_numeric : bool }.

(** csvparse.nim 7 *)
Definition field_limit : Z := 128 * 1024.

(** csvparse.nim 60-71; [None] = returns false, which makes parseCSV raise. *)
Definition add_char (r : reader) (c : chr) : option reader :=
  if decide (field_limit <= Z.of_nat (length (r_field r))) then None
  else Some (Reader (r_state r) (r_field r ++ [c]) (r_fields r) (r_numeric r)).

(** std/strutils [Whitespace] *)
Definition is_whitespace (c : chr) : bool := bool_decide (c ∈ [32; 9; 11; 13; 10; 12]).

(** [strip(leading = false, trailing = true)] *)
Fixpoint strip_trailing (f : list chr) : list chr :=
  match f with
  | [] => []
  | c :: f => match strip_trailing f with
              | [] => if is_whitespace c then [] else [c]
              | f' => c :: f'
              end
  end.

(** csvparse.nim 91: [multiReplace(("\n", "\\n"), ("\t", "\\t"))] *)
Definition replace_breaks (f : list chr) : list chr :=
  concat (map (λ c, if Z.eqb c 10 then [92; 110] else if Z.eqb c 9 then [92; 116] else [c]) f).

(** csvparse.nim 73-99; [None] = the exception of line 77. *)
Definition save_field (dia : dialect) (r : reader) : option reader :=
  if r_numeric r then None
  else
    let f := r_field r in
    let f := if skiptrailingspace dia then strip_trailing f else f in
    let f := if decide (d_quoting dia = QUOTE_NONE) then f else replace_breaks f in
    Some (Reader (r_state r) [] (r_fields r ++ [f]) false).

Definition set_state (s : pstate) (r : reader) : reader :=
  Reader s (r_field r) (r_fields r) (r_numeric r).

(** The argument of parseProcessChar (101): a character or EOL. *)
Inductive event := Ch (c : chr) | EOL.

Definition is_crnl (c : chr) : bool := Z.eqb c 10 || Z.eqb c 13.

(** csvparse.nim 101-217.  Line 104: [c] is NUL for EOL. *)
Definition process_char (dia : dialect) (r : reader) (ev : event) : option reader :=
  let eol := match ev with EOL => true | Ch _ => false end in
  let c := match ev with EOL => 0 | Ch c => c end in
  let quoting_on := bool_decide (d_quoting dia ≠ QUOTE_NONE) in
  match r_state r with
  | START_RECORD | START_FIELD =>                                    (* 107-136 *)
      if eol then Some r
      else if is_crnl c then
        r ← save_field dia r; Some (set_state EAT_CRNL r)
      else
        let r := set_state START_FIELD r in
        if Z.eqb c (quotechar dia) && quoting_on then Some (set_state IN_QUOTED_FIELD r)
        else if Z.eqb c (escapechar dia) then Some (set_state ESCAPED_CHAR r)
        else if Z.eqb c 32 && skipinitialspace dia then Some r
        else if Z.eqb c (delimiter dia) then save_field dia r
        else
          let r := if decide (d_quoting dia = QUOTE_NONNUMERIC)
                   then Reader (r_state r) (r_field r) (r_fields r) true else r in
          r ← add_char r c; Some (set_state IN_FIELD r)
  | ESCAPED_CHAR =>                                                  (* 137-150 *)
      r ← (if is_crnl c then add_char r c else Some r);
      r ← add_char r (if eol then 10 else c);
      Some (set_state IN_FIELD r)
  | AFTER_ESCAPED_CRNL | IN_FIELD =>                                 (* 151-167 *)
      if bool_decide (r_state r = AFTER_ESCAPED_CRNL) && eol then Some r
      else if is_crnl c || eol then
        r ← save_field dia r; Some (set_state (if eol then START_RECORD else EAT_CRNL) r)
      else if Z.eqb c (escapechar dia) then Some (set_state ESCAPED_CHAR r)
      else if Z.eqb c (delimiter dia) then
        r ← save_field dia r; Some (set_state START_FIELD r)
      else add_char r c
  | IN_QUOTED_FIELD =>                                               (* 168-180 *)
      if eol then Some r
      else if Z.eqb c (escapechar dia) then Some (set_state ESCAPE_IN_QUOTED_FIELD r)
      else if Z.eqb c (quotechar dia) && quoting_on then
        Some (set_state (if doublequote dia then QUOTE_IN_QUOTED_FIELD else IN_FIELD) r)
      else add_char r c
  | ESCAPE_IN_QUOTED_FIELD =>                                        (* 181-189 *)
      r ← add_char r (if eol then 10 else c);
      Some (set_state IN_QUOTED_FIELD r)
  | QUOTE_IN_QUOTED_FIELD =>                                         (* 190-208 *)
      if quoting_on && Z.eqb c (quotechar dia) then
        r ← add_char r c; Some (set_state IN_QUOTED_FIELD r)
      else if Z.eqb c (delimiter dia) then
        r ← save_field dia r; Some (set_state START_FIELD r)
      else if is_crnl c || eol then
        r ← save_field dia r; Some (set_state (if eol then START_RECORD else EAT_CRNL) r)
      else if negb (strict dia) then
        r ← add_char r c; Some (set_state IN_FIELD r)
      else None
  | EAT_CRNL =>                                                      (* 209-215 *)
      if is_crnl c then Some r
      else if eol then Some (set_state START_RECORD r)
      else None
  end.

(** Nim's [File.readLine] repeated to the end of the file (encfile.nim 47-58): the
    characters up to a newline, without a carriage return directly before it, and
    the number of characters consumed.  [cur] are the characters of the current
    line so far. *)
Fixpoint read_lines_from (cur : list chr) (text : list chr) : list (list chr * Z) :=
  match text with
  | [] => match cur with [] => [] | _ => [(cur, Z.of_nat (length cur))] end
  | c :: text =>
      if Z.eqb c 10 then
        let line := match rev cur with 13 :: before => rev before | _ => cur end in
        (line, Z.of_nat (length cur) + 1) :: read_lines_from [] text
      else read_lines_from (cur ++ [c]) text
  end.
Definition read_lines (text : list chr) : list (list chr * Z) := read_lines_from [] text.

(** csvparse.nim 236-250: one line, the added newline and EOL. *)
Fixpoint process_all (dia : dialect) (r : reader) (evs : list event) : option reader :=
  match evs with
  | [] => Some r
  | ev :: evs => r ← process_char dia r ev; process_all dia r evs
  end.
Definition process_line (dia : dialect) (r : reader) (line : list chr) : option reader :=
  process_all dia r (map Ch (line ++ [10]) ++ [EOL]).

(** csvparse.nim 52-53, 222-229 *)
Definition reader0 : reader := Reader START_RECORD [] [] false.

(** csvparse.nim 231-259.  [while not endOfFile: readLine …]: since [readLine]
    only fails at the end of the file, lines 232-238 are not reached.  The result
    is the records yielded with the file position after each, and whether the
    loop ended without an exception. *)
Fixpoint parse_loop (dia : dialect) (r : reader) (pos : Z) (lines : list (list chr * Z))
    : list (list (list chr) * Z) * bool :=
  match lines with
  | [] => ([], true)
  | (line, n) :: lines =>
      match process_line dia r line with
      | None => ([], false)
      | Some r =>
          if decide (r_state r = START_RECORD) then
            let rest := parse_loop dia (Reader (r_state r) (r_field r) [] (r_numeric r)) (pos + n) lines in
            ((r_fields r, pos + n) :: rest.1, rest.2)
          else parse_loop dia r (pos + n) lines
      end
  end.

(** The records of parseCSV (221-259) over a file opened at [text]. *)
Definition parse_csv (dia : dialect) (text : list chr) : list (list (list chr)) * bool :=
  let out := parse_loop dia reader0 0 (read_lines text) in (out.1.*1, out.2).

(** csvparse.nim 315-328 *)
Fixpoint line_offsets (pos : Z) (lines : list (list chr * Z)) : list Z :=
  match lines with
  | [] => []
  | (_, n) :: lines => (pos + n) :: line_offsets (pos + n) lines
  end.
Definition find_newlines_no_qualifier (text : list chr) : list Z * Z :=
  let lines := read_lines text in (0 :: line_offsets 0 lines, Z.of_nat (length lines)).

(** csvparse.nim 330-343 *)
Definition find_newlines_qualifier (dia : dialect) (text : list chr) : option (list Z * Z) :=
  let out := parse_loop dia reader0 0 (read_lines text) in
  if out.2 then Some (0 :: out.1.*2, Z.of_nat (length out.1)) else None.

(** csvparse.nim 345-349 *)
Definition find_newlines (dia : dialect) (text : list chr) : option (list Z * Z) :=
  if decide (d_quoting dia = QUOTE_NONE) then Some (find_newlines_no_qualifier text)
  else find_newlines_qualifier dia text.

(** pylayer.nim [makeDialect] / import_utils.py 613-617: the dialects the Python
    layer builds: escape character backslash, doubled quotes, one [strip] flag. *)
Definition tablite_dialect (d : chr) (q : option chr) (strip : bool) : dialect :=
  Dialect d (default 34 q) 92 true (if q then QUOTE_MINIMAL else QUOTE_NONE) strip strip false.
