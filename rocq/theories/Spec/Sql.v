(** Reading a script of SQL that makes one table and fills it.  Texts are lists of characters.
    Knows nothing of tablite. *)
From Coq Require Import String Ascii.
From Verif.Spec Require Export TypedText Rows.
Local Open Scope Z_scope.

Fixpoint chars (s : string) : list Z :=
  match s with
  | EmptyString => []
  | String a s => Z.of_N (N_of_ascii a) :: chars s
  end.

(** ** Words *)
Definition is_digit (c : Z) : bool := (48 <=? c) && (c <=? 57).
Definition starts_word (c : Z) : bool := ((65 <=? c) && (c <=? 90)) || ((97 <=? c) && (c <=? 122)) || (c =? 95).
Definition in_word (c : Z) : bool := starts_word c || is_digit c.
Definition capital (c : Z) : Z := if (97 <=? c) && (c <=? 122) then c - 32 else c.
(** words are the same if they are in capitals *)
Definition capitals (w : list Z) : list Z := map capital w.

(** ** Tokens: a text in apostrophes, in which two stand for one *)
Inductive token := Word (w : list Z) | Number (w : list Z) | Text (s : list Z) | Sign (c : Z).
(** between tokens, in a word, in a number, in a text, or behind an apostrophe in a text; what was
    read of the token, backwards *)
Inductive lexer := Between | InWord (w : list Z) | InNumber (w : list Z) | InText (s : list Z) | Behind (s : list Z).
Definition pending (m : lexer) : option (list token) :=
  match m with
  | Between => Some []
  | InWord w => Some [Word (rev w)]
  | InNumber w => Some [Number (rev w)]
  | InText _ => None
  | Behind s => Some [Text (rev s)]
  end.
(** [c] goes on with the token *)
Definition goes_on (m : lexer) (c : Z) : option lexer :=
  match m with
  | Between => None
  | InWord w => if in_word c then Some (InWord (c :: w)) else None
  | InNumber w =>
      if is_digit c || (c =? 46) || (c =? 101) || (c =? 69)
         || (((c =? 43) || (c =? 45)) && match w with e :: _ => (e =? 101) || (e =? 69) | [] => false end)
      then Some (InNumber (c :: w)) else None
  | InText s => Some (if c =? 39 then Behind s else InText (c :: s))
  | Behind s => if c =? 39 then Some (InText (c :: s)) else None
  end.
(** [c] begins a token, or is one *)
Definition begins (c : Z) : option (list token * lexer) :=
  if (c =? 32) || (c =? 9) || (c =? 10) || (c =? 13) then Some ([], Between)
  else if is_digit c then Some ([], InNumber [c])
  else if starts_word c then Some ([], InWord [c])
  else if c =? 39 then Some ([], InText [])
  else if (c =? 40) || (c =? 41) || (c =? 44) || (c =? 59) || (c =? 45) then Some ([Sign c], Between)
  else None.
Fixpoint tokens (m : lexer) (s : list Z) : option (list token) :=
  match s with
  | [] => pending m
  | c :: s =>
      match goes_on m c with
      | Some m' => tokens m' s
      | None =>
          match pending m, begins c with
          | Some a, Some (b, m') => option_map (λ l, a ++ b ++ l) (tokens m' s)
          | _, _ => None
          end
      end
  end.

Example tokens_test :
  tokens Between (chars "insert (a,'it''s',-1.5e+3);")
  = Some [Word (chars "insert"); Sign 40; Word (chars "a"); Sign 44; Text (chars "it's"); Sign 44; Sign 45; Number (chars "1.5e+3"); Sign 41; Sign 59].
Proof. by vm_compute. Qed.

(** ** Values and rows *)
Inductive sql := SqlNull | SqlBool (b : bool) | SqlInt (n : Z) | SqlReal (t : list Z) | SqlText (s : list Z).
Definition number_value (negative : bool) (w : list Z) : sql :=
  if forallb is_digit w then SqlInt (if negative then - digits_value w else digits_value w)
  else SqlReal (if negative then 45 :: w else w).
Definition word_value (w : list Z) : option sql :=
  let w := capitals w in
  if decide (w = chars "NULL") then Some SqlNull
  else if decide (w = chars "TRUE") then Some (SqlBool true)
  else if decide (w = chars "FALSE") then Some (SqlBool false) else None.
Definition read_value (l : list token) : option (sql * list token) :=
  match l with
  | Text s :: l => Some (SqlText s, l)
  | Number w :: l => Some (number_value false w, l)
  | Sign c :: Number w :: l => if c =? 45 then Some (number_value true w, l) else None
  | Word w :: l => option_map (λ v, (v, l)) (word_value w)
  | _ => None
  end.
(** elements with commas between, behind the last one [stop]; [n] is the number of tokens *)
Fixpoint read_list {A} (elem : list token → option (A * list token)) (stop : Z) (n : nat) (l : list token) : option (list A * list token) :=
  match n with
  | O => None
  | S n =>
      match elem l with
      | Some (x, Sign c :: l) =>
          if c =? stop then Some ([x], l)
          else if c =? 44 then option_map (λ r, (x :: r.1, r.2)) (read_list elem stop n l) else None
      | _ => None
      end
  end.
Definition read_row (l : list token) : option (list sql * list token) :=
  match l with
  | Sign c :: l => if c =? 40 then read_list read_value 41 (length l) l else None
  | _ => None
  end.

(** ** Columns *)
Section Reserved.
  (** the words that name nothing, in capitals *)
  Context (reserved : list Z → bool).

  Definition read_column (l : list token) : option ((list Z * list Z) * list token) :=
    match l with
    | Word n :: Word t :: l => if reserved (capitals n) then None else Some ((n, capitals t), l)
    | _ => None
    end.

  (** the words [ws] *)
  Fixpoint expect_words (ws : list string) (l : list token) : option (list token) :=
    match ws, l with
    | [], _ => Some l
    | w :: ws, Word v :: l => if decide (capitals v = chars w) then expect_words ws l else None
    | _, _ => None
    end.
  Definition expect_sign (c : Z) (l : list token) : option (list token) :=
    match l with
    | Sign d :: l => if c =? d then Some l else None
    | _ => None
    end.
  Definition read_name (l : list token) : option (list Z * list token) :=
    match l with
    | Word n :: l => if reserved (capitals n) then None else Some (n, l)
    | _ => None
    end.

  (** ** The script: the table, its columns with their types, and its rows *)
  Record sql_table := SqlTable { q_name : list Z; q_columns : list (list Z * list Z); q_rows : list (list sql) }.
  Definition read_script (text : list Z) : option sql_table :=
    l ← tokens Between text;
    l ← expect_words ["BEGIN"%string] l; l ← expect_sign 59 l;
    l ← expect_words ["CREATE"; "TABLE"]%string l;
    '(name, l) ← read_name l;
    l ← expect_sign 40 l;
    '(columns, l) ← read_list read_column 41 (length l) l;
    l ← expect_sign 59 l;
    l ← expect_words ["INSERT"; "INTO"]%string l;
    '(name', l) ← read_name l;
    l ← expect_words ["VALUES"%string] l;
    '(rows, l) ← read_list read_row 59 (length l) l;
    l ← expect_words ["COMMIT"%string] l; l ← expect_sign 59 l;
    if decide (l = [] ∧ capitals name = capitals name' ∧ NoDup (map capitals columns.*1)
               ∧ Forall (λ r : list sql, length r = length columns) rows)
    then Some (SqlTable name columns rows) else None.

  (** a word that can be a name *)
  Definition identifier (w : list Z) : Prop :=
    (∃ c w', w = c :: w' ∧ starts_word c = true ∧ Forall (λ c, in_word c = true) w') ∧ reserved (capitals w) = false.
End Reserved.

Example read_script_test :
  read_script (λ _, false) (chars "begin; create table t (a integer, b text); insert into T values (1, 'x'),(-2, null); commit;")
  = Some (SqlTable (chars "t") [(chars "a", chars "INTEGER"); (chars "b", chars "TEXT")]
            [[SqlInt 1; SqlText (chars "x")]; [SqlInt (-2); SqlNull]]).
Proof. by vm_compute. Qed.

(** ** Values in SQL *)

(** [-1.5], [2e+20], [1.25e-07] *)
Definition real_numeral (t : list Z) : Prop :=
  ∃ sign a b e, (sign = [] ∨ sign = [45]) ∧ a ≠ [] ∧ Forall digit a ∧ Forall digit b ∧
    (e = [] ∨ ∃ s ds, (s = 43 ∨ s = 45) ∧ ds ≠ [] ∧ Forall digit ds ∧ e = 101 :: s :: ds) ∧ (b ≠ [] ∨ e ≠ []) ∧
    t = sign ++ a ++ (if decide (b = []) then [] else 46 :: b) ++ e.
(** the value of SQL that stands for a cell; [show] is the text of a float *)
Definition sql_of (show : Z → list Z) (c : cell) : option sql :=
  match c with
  | CNone => Some SqlNull
  | CBool b => Some (SqlBool b)
  | CInt n => Some (SqlInt n)
  | CFloat x => Some (SqlReal (show x))
  | CStr s => Some (SqlText s)
  | CDate _ | CTime _ | CDateTime _ _ => None
  end.
(** what is known of [str.isprintable] of a character: no control character, but all of ASCII beside *)
Definition python_printable (printable : Z → bool) : Prop :=
  ∀ c, (32 <= c < 127 → printable c = true) ∧ (printable c = true → 32 <= c).
(** a text of printable characters without apostrophe and backslash *)
Definition plain_text (printable : Z → bool) (s : list Z) : Prop :=
  Forall (λ c, printable c = true ∧ c ≠ 39 ∧ c ≠ 92) s.
(** cells whose text in Python is their text in SQL *)
Definition same_in_sql (printable : Z → bool) (show : Z → list Z) (c : cell) : Prop :=
  match c with
  | CBool _ | CInt _ => True
  | CFloat x => real_numeral (show x)
  | CStr s => plain_text printable s
  | _ => False
  end.
Definition same_or_none (printable : Z → bool) (show : Z → list Z) (c : cell) : Prop := c = CNone ∨ same_in_sql printable show c.
(** as [sql_of], but the text [NULL] for None *)
Definition null_as_text (show : Z → list Z) (c : cell) (v : sql) : Prop :=
  if decide (c = CNone) then v = SqlText (chars "NULL") else sql_of show c = Some v.
(** the type for the values of a column *)
Definition sql_type (l : list cell) : list Z :=
  if decide (l ≠ [] ∧ Forall (λ c, kind_of c = KInt) l) then chars "INTEGER"
  else if decide (l ≠ [] ∧ Forall (λ c, kind_of c = KFloat) l) then chars "REAL" else chars "TEXT".
(** the columns of the table *)
Definition sql_columns (v : list (string * list cell)) : list (list Z * list Z) := map (λ c, (chars c.1, sql_type c.2)) v.
