(** tablite/file_reader_utils.py: [split_by_sequence] (15-25), [TextEscape] (28-112) and [get_delimiter]
    (329-340), with Python's [str.find], [str.split] and [csv.reader] (CPython 3.11, Modules/_csv.c,
    [parse_process_char] and [Reader_iternext], with the dialect of lines 100-107).  Lines are of
    file_reader_utils.py.

    Simplifications: texts are lists of code points; csv's limit of 131072 characters per word is left out;
    arguments are texts or [None], the checks for other types (58, 65, 68) are left out; of csv's checks of a
    dialect only that delimiter and quote have one character is modelled. *)
From Verif.Spec Require Export Words.
From Verif.Model Require Export Headers.
Local Open Scope Z_scope.

Fixpoint starts_with (p s : list Z) : bool :=
  match p, s with
  | [], _ => true
  | x :: p, y :: s => (x =? y) && starts_with p s
  | _ :: _, [] => false
  end.

(** [text.find(element)]; [None] is -1 *)
Fixpoint str_find (text element : list Z) : option nat :=
  if starts_with element text then Some O
  else match text with [] => None | _ :: text => S <$> str_find text element end.

(** 15-25 *)
Fixpoint split_by_sequence (text : list Z) (sequence : list (list Z)) : res (list (list Z)) :=
  match sequence with
  | [] => Ok [text]
  | element :: sequence =>
      match str_find text element with
      | None => Err ValueError
      | Some idx =>
          res_map (λ chunks, take idx text :: chunks)
            (split_by_sequence (drop (List.length element + idx) text) sequence)
      end
  end.

(** [s.split(delimiter)] *)
Fixpoint str_split (fuel : nat) (s delimiter : list Z) : list (list Z) :=
  match fuel with
  | O => [s]
  | S fuel =>
      match str_find s delimiter with
      | None => [s]
      | Some idx => take idx s :: str_split fuel (drop (List.length delimiter + idx) s) delimiter
      end
  end.

(** 91-92 *)
Definition call_1 (delimiter s : list Z) : res (list (list Z)) :=
  match delimiter with [] => Err ValueError | _ => Ok (str_split (List.length s) s delimiter) end.

(** [s.lstrip(" ")], [s.rstrip(" ")] *)
Fixpoint lstrip_spaces (s : list Z) : list Z :=
  match s with c :: r => if c =? 32 then lstrip_spaces r else s | [] => [] end.
Definition rstrip_spaces (s : list Z) : list Z := rev (lstrip_spaces (rev s)).

(** 94-95 *)
Definition call_2 (delimiter s : list Z) : res (list (list Z)) :=
  res_map (map (λ w, lstrip_spaces (rstrip_spaces w))) (call_1 delimiter s).

(** *** csv.reader *)
Inductive csv_state :=
  StartRecord | StartField | EscapedChar | InField | InQuotedField | EscapeInQuotedField
| QuoteInQuotedField | EatCrnl | AfterEscapedCrnl.

(** the state, the words of the record so far and the word begun *)
Record csv_reader := Reader { r_state : csv_state; r_words : list (list Z); r_word : list Z }.

Definition add_char (r : csv_reader) (st : csv_state) (c : Z) : csv_reader :=
  Reader st (r_words r) (r_word r ++ [c]).
Definition save_word (r : csv_reader) (st : csv_state) : csv_reader :=
  Reader st (r_words r ++ [r_word r]) [].
Definition to_state (r : csv_reader) (st : csv_state) : csv_reader := Reader st (r_words r) (r_word r).

Definition is_newline (c : Z) : bool := (c =? 10) || (c =? 13).

Section reader.
  Context (d q : Z).

  (** cases START_FIELD and IN_FIELD; [None] is the end of a line *)
  Definition start_field (r : csv_reader) (c : option Z) : csv_reader :=
    match c with
    | None => save_word r StartRecord
    | Some c =>
        if is_newline c then save_word r EatCrnl
        else if c =? q then to_state r InQuotedField
        else if c =? 92 then to_state r EscapedChar
        else if c =? d then save_word r StartField
        else add_char r InField c
    end.

  Definition in_field (r : csv_reader) (c : option Z) : csv_reader :=
    match c with
    | None => save_word r StartRecord
    | Some c =>
        if is_newline c then save_word r EatCrnl
        else if c =? 92 then to_state r EscapedChar
        else if c =? d then save_word r StartField
        else add_char r InField c
    end.

  (** [parse_process_char] *)
  Definition process_char (r : csv_reader) (c : option Z) : res csv_reader :=
    match r_state r with
    | StartRecord =>
        match c with
        | None => Ok r
        | Some x => if is_newline x then Ok (to_state r EatCrnl) else Ok (start_field r c)
        end
    | StartField => Ok (start_field r c)
    | EscapedChar =>
        match c with
        | None => Ok (add_char r InField 10)
        | Some x => if is_newline x then Ok (add_char r AfterEscapedCrnl x) else Ok (add_char r InField x)
        end
    | AfterEscapedCrnl => match c with None => Ok r | Some _ => Ok (in_field r c) end
    | InField => Ok (in_field r c)
    | InQuotedField =>
        match c with
        | None => Ok r
        | Some x =>
            if x =? 92 then Ok (to_state r EscapeInQuotedField)
            else if x =? q then Ok (to_state r QuoteInQuotedField)
            else Ok (add_char r InQuotedField x)
        end
    | EscapeInQuotedField => Ok (add_char r InQuotedField (default 10 c))
    | QuoteInQuotedField =>
        match c with
        | None => Ok (save_word r StartRecord)
        | Some x =>
            if x =? q then Ok (add_char r InQuotedField x)
            else if x =? d then Ok (save_word r StartField)
            else if is_newline x then Ok (save_word r EatCrnl)
            else Ok (add_char r InField x)
        end
    | EatCrnl =>
        match c with
        | None => Ok (to_state r StartRecord)
        | Some x => if is_newline x then Ok r else Err OtherError
        end
    end.

  (** [Reader_iternext]: a record ends with a line that leaves the reader in START_RECORD, or with the file *)
  Fixpoint read_records (feed : list (option Z)) (r : csv_reader) : res (list (list (list Z))) :=
    match feed with
    | [] =>
        match r_state r with
        | StartRecord => Ok []
        | st =>
            if (0 <? zlen (r_word r)) || match st with InQuotedField => true | _ => false end
            then Ok [r_words r ++ [r_word r]] else Ok []
        end
    | c :: feed =>
        res_bind (process_char r c) (λ r',
          match c, r_state r' with
          | None, StartRecord => res_map (cons (r_words r')) (read_records feed (Reader StartRecord [] []))
          | _, _ => read_records feed r'
          end)
    end.
End reader.

(** The characters of the lines of a StringIO, [None] behind every line *)
Fixpoint feed_from (open : bool) (s : list Z) : list (option Z) :=
  match s with
  | [] => if open then [None] else []
  | c :: s => if c =? 10 then Some c :: None :: feed_from false s else Some c :: feed_from true s
  end.

Definition csv_records (d q : Z) (s : list Z) : res (list (list (list Z))) :=
  read_records d q (feed_from false s) (Reader StartRecord [] []).

(** 97-112 *)
Definition call_3 (delimiter quote s : list Z) : res (list (list Z)) :=
  match delimiter, quote with
  | [d], [q] =>
      res_bind (csv_records d q s) (λ records,
        match records with [] => Err IndexError | words :: _ => Ok words end)
  | _, _ => Err TypeError
  end.

(** 39-86 and 88-89: a TextEscape made with these arguments and called with [s]; [None] is Python's [None] *)
Definition text_escape (openings closures text_qualifier : option (list Z)) (delimiter : list Z)
    (strip_leading_and_tailing_whitespace : bool) (s : list Z) : res (list (list Z)) :=
  res_bind
    (match text_qualifier with
     | None => Ok false
     | Some q =>
         match openings, closures with
         | None, None => Ok false
         | Some o, Some c => Ok (match str_find (o ++ c) q with None => false | Some _ => true end)
         | _, _ => Err TypeError
         end
     end) (λ bad : bool,
    if bad then Err ValueError
    else
      match text_qualifier with
      | None | Some [] => if strip_leading_and_tailing_whitespace then call_2 delimiter s else call_1 delimiter s
      | Some q => call_3 delimiter q s
      end).

(** 329-340; [lines] are the lines of the file without their ends *)
Definition get_delimiter (order : list chr) (lines : list (list chr)) : res chr :=
  res_bind (detect_seperator order (join_lines (take 12 lines))) (λ d,
    match d with None => Err ValueError | Some c => Ok c end).

(** what line 75 demands: both kinds of brackets or none, and no quote among them *)
Definition brackets_ok (openings closures : option (list Z)) (quote : list Z) : Prop :=
  match openings, closures with
  | None, None => True
  | Some o, Some c => ¬ occurs quote (o ++ c)
  | _, _ => False
  end.
