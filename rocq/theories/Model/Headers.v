(** tablite/file_reader_utils.py: [detect_seperator] (114-144) and [text_reader_headers] (146-203),
    with [getHeaders] of nimlite/funcs/text_reader/text_reader.nim (115-142).  Lines are of
    file_reader_utils.py if no file is named.

    Texts are bytes.  Simplifications: the file is ASCII or UTF-8 without byte order mark and [chardet]
    says so; [delimiter] is one character; [header_row_index] is not negative. *)
From Verif.Spec Require Export Headers PySort.
From Verif.Model Require Export Csv Export.
Local Open Scope Z_scope.

(** 114-144; [order] is the set of line 131 in the order of its iteration; [None] is Python's [None] *)
Definition pair_geb (a b : Z * chr) : bool := (b.1 <? a.1) || ((b.1 =? a.1) && (b.2 <=? a.2)).
Definition detect_seperator (order : list chr) (text : list chr) : res (option chr) :=
  if decide (text = []) then Ok None
  else
    let seps := filter (λ c, c ∈ text) order in
    match seps with
    | [] => if decide (32 ∈ text) then Ok (Some 32) else if decide (10 ∈ text) then Ok (Some 10) else Err ValueError
    | [c] => Ok (Some c)
    | _ =>
        let frq := py_sort pair_geb (map (λ c, (zlen (filter (λ x, x = c) text), c)) seps) in
        match frq with [] => Err IndexError | f :: _ => Ok (Some f.2) end
    end.

(** Python's text files: "\r\n" and "\r" are read as "\n" (universal newlines); the lines without their ends *)
Fixpoint py_lines_from (cur text : list chr) : list (list chr) :=
  match text with
  | [] => match cur with [] => [] | _ => [cur] end
  | c :: text' =>
      if c =? 10 then cur :: py_lines_from [] text'
      else if c =? 13 then
        match text' with
        | 10 :: text'' => cur :: py_lines_from [] text''
        | _ => cur :: py_lines_from [] text'
        end
      else py_lines_from (cur ++ [c]) text'
  end.
Definition py_lines (text : list chr) : list (list chr) := py_lines_from [] text.

(** 160-167: line [header_row_index] and up to [linecount] more *)
Definition sample_lines (header_row_index : nat) (linecount : Z) (text : list chr) : list (list chr) :=
  take (S (Z.to_nat linecount)) (drop header_row_index (py_lines text)).
(** 169: ["\n".join(lines)] *)
Fixpoint join_lines (lines : list (list chr)) : list chr :=
  match lines with
  | [] => []
  | [l] => l
  | l :: lines => l ++ 10 :: join_lines lines
  end.

(** text_reader.nim 115-142: rows after the skipped ones until [lineCount] are there, at least one *)
Definition getHeaders (dia : dialect) (skip : nat) (lineCount : Z) (text : list chr) : res (list (list (list chr))) :=
  let '(recs, ok) := parse_csv dia text in
  let rows := drop skip recs in
  let enough := Nat.max 1 (Z.to_nat lineCount) in
  if bool_decide (enough <= length rows)%nat || ok then Ok (map (map stripEscape) (take enough rows)) else Err OtherError.

(** the suffixes of 148-152 *)
Inductive suffix := Csv | Tsv | Txt.
Definition default_delimiter (s : suffix) : option chr := match s with Csv => Some 44 | Tsv => Some 9 | Txt => None end.

(** the dict returned: [h_delimiter] is [None] if it has no key "delimiter" *)
Record headers := Headers { h_delimiter : option (option chr); h_rows : list (list (list chr)); h_empty : bool }.

(** 146-203 *)
Definition text_reader_headers (order : list chr) (s : suffix) (delimiter text_qualifier : option chr) (header_row_index : nat) (linecount : Z)
    (text : list chr) : res headers :=
  let rows := λ d, match getHeaders (tablite_dialect d text_qualifier true) header_row_index linecount text with
                   | Ok rows => Ok rows
                   | Err _ => Err ValueError                     (* 202-203 *)
                   end in
  match delimiter with
  | Some d => res_map (λ rows, Headers None rows false) (rows d)
  | None =>
      let lines := sample_lines header_row_index linecount text in
      let found := match detect_seperator order (join_lines lines) with Ok d => d | Err _ => None end in
      match found with
      | Some d => res_map (λ rows, Headers (Some (Some d)) rows false) (rows d)
      | None => Ok (Headers (Some (default_delimiter s)) [lines] true)
      end
  end.
