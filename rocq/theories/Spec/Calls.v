(** Calls of Python functions: how the arguments of a call become the values
    of the parameters (Python language reference, section 6.3.4), and what it
    means that a method hands the arguments of its caller to a function. *)
From Coq Require Import String.
From Verif.Spec Require Import Base.
Local Open Scope string_scope.
Local Open Scope list_scope.
Local Open Scope Z_scope.

(** Values of arguments.  [A] is the type of all objects that the code modelled
    here only hands on (tables, lists, functions, numbers, ...).  [VText v] is
    [str(v)], [VGlobal n] the object that a module knows as [n]. *)
Inductive value (A : Type) :=
| VNone
| VBool (b : bool)
| VInt (n : Z)
| VStr (s : string)
| VPath (s : string)
| VText (v : value A)
| VGlobal (n : string)
| VObj (a : A).
Arguments VNone {A}.
Arguments VBool {A} _.
Arguments VInt {A} _.
Arguments VStr {A} _.
Arguments VPath {A} _.
Arguments VText {A} _.
Arguments VGlobal {A} _.
Arguments VObj {A} _.

Section calls.
  Context {A : Type}.
  Notation V := (value A).

  (** A parameter: its name and its default value. *)
  Definition param := (string * option V)%type.

  (** The parameters of a function: those that may be given by position, a
      parameter for further positions, those given by name only and a parameter
      for further names. *)
  Record signature := Sig {
    sg_pos : list param;
    sg_star : bool;
    sg_only : list param;
    sg_kw : bool }.

  (** The values of the parameters at a call. *)
  Record binding := Bind {
    bd_args : list (string * V);
    bd_star : list V;
    bd_kw : list (string * V) }.

  Fixpoint value_in (l : list (string * V)) (n : string) : option V :=
    match l with
    | [] => None
    | (m, v) :: l => if String.eqb m n then Some v else value_in l n
    end.

  Definition value_of (b : binding) (n : string) : option V :=
    value_in (bd_args b) n.

  Definition among (n : string) (l : list string) : bool :=
    existsb (String.eqb n) l.

  Fixpoint no_twice (l : list string) : bool :=
    match l with [] => true | n :: l => negb (among n l) && no_twice l end.

  (** Positions: the parameters that get a value, those that remain, and the
      values that remain. *)
  Fixpoint by_position (ps : list param) (vs : list V)
    : list (string * V) * list param * list V :=
    match ps, vs with
    | p :: ps', v :: vs' =>
        let '(got, rest, more) := by_position ps' vs' in
        ((p.1, v) :: got, rest, more)
    | _, _ => ([], ps, vs)
    end.

  (** The other parameters get the value given by name or their default. *)
  Fixpoint by_name (ps : list param) (kws : list (string * V))
    : res (list (string * V)) :=
    match ps with
    | [] => Ok []
    | (n, d) :: ps =>
        match (match value_in kws n with Some v => Some v | None => d end) with
        | None => Err TypeError
        | Some v => res_map (cons (n, v)) (by_name ps kws)
        end
    end.

  Definition bind_args (s : signature) (vs : list V) (kws : list (string * V))
    : res binding :=
    let '(got, rest, more) := by_position (sg_pos s) vs in
    let open := rest ++ sg_only s in
    if negb (no_twice kws.*1) then Err TypeError
    else if existsb (fun k => among k got.*1) kws.*1 then Err TypeError
    else if (if sg_star s then false
             else match more with [] => false | _ => true end) then Err TypeError
    else if (if sg_kw s then false
             else existsb (fun k => negb (among k open.*1)) kws.*1)
      then Err TypeError
    else match by_name open kws with
         | Err e => Err e
         | Ok named =>
             Ok (Bind (got ++ named) (if sg_star s then more else [])
                   (List.filter (fun kv => negb (among kv.1 open.*1)) kws))
         end.

  Definition params_of (s : signature) : list param := sg_pos s ++ sg_only s.

  (** A method with the parameters [m], called with the values [c], hands
      everything to the function with the parameters [f], called with the
      values [b]: the table comes first, every other argument of the method is
      the argument of the same name of the function, and what the method has no
      parameter for keeps its default.  [extra] are values that the method sets
      itself. *)
  Definition hands_over (m : signature) (c : binding) (f : signature)
      (b : binding) (extra : list (string * V)) : Prop :=
    (∃ own first, head (sg_pos m) = Some own ∧ head (sg_pos f) = Some first
       ∧ is_Some (value_of c own.1)
       ∧ value_of b first.1 = value_of c own.1)
    ∧ (∀ n, n ∈ (tail (params_of m)).*1 →
         is_Some (value_of c n) ∧ value_of b n = value_of c n)
    ∧ (∀ n v, (n, v) ∈ extra → value_of b n = Some v)
    ∧ (∀ p, p ∈ tail (params_of f) →
         p.1 ∉ (tail (params_of m)).*1 → p.1 ∉ extra.*1 →
         value_of b p.1 = p.2)
    ∧ bd_star b = bd_star c
    ∧ bd_kw b = bd_kw c.

  (** The functions that the methods of a table stand for. *)
  Definition implemented_by : list (string * string) :=
    [("from_pandas", "import_utils.from_pandas");
     ("from_hdf5", "import_utils.from_hdf5");
     ("from_json", "import_utils.from_json");
     ("to_hdf5", "export_utils.to_hdf5");
     ("to_pandas", "export_utils.to_pandas");
     ("to_sql", "export_utils.to_sql");
     ("to_json", "export_utils.to_json");
     ("expression", "redux._filter_using_expression");
     ("filter", "redux.filter");
     ("sort_index", "sortation.sort_index");
     ("sort", "sortation.sort");
     ("sorted", "sortation.sort");
     ("is_sorted", "sortation.is_sorted");
     ("any", "redux.filter_any");
     ("all", "redux.filter_all");
     ("drop", "redux.drop");
     ("groupby", "nimlite.groupby");
     ("pivot", "pivots.pivot");
     ("merge", "merge.where");
     ("column_select", "nimlite.column_select");
     ("left_join", "joins.left_join");
     ("inner_join", "joins.inner_join");
     ("outer_join", "joins.outer_join");
     ("cross_join", "joins.cross_join");
     ("lookup", "lookup.lookup");
     ("match", "match.match");
     ("imputation", "imputation.imputation");
     ("transpose", "pivots.transpose");
     ("pivot_transpose", "pivots.pivot_transpose");
     ("diff", "diff.diff")].

  (** The functions that write the files with an ending. *)
  Definition written_by : list (string * (string * string)) :=
    [("to_xlsx", (".xlsx", "export_utils.excel_writer"));
     ("to_ods", (".ods", "export_utils.excel_writer"));
     ("to_csv", (".csv", "export_utils.text_writer"));
     ("to_tsv", (".tsv", "export_utils.text_writer"));
     ("to_text", (".txt", "export_utils.text_writer"));
     ("to_html", (".html", "export_utils.to_html"))].

  (** The functions that read the files with an ending. *)
  Definition read_by : list (string * string) :=
    [(".fods", "import_utils.excel_reader"); (".json", "import_utils.excel_reader");
     (".html", "import_utils.from_html"); (".hdf5", "import_utils.from_hdf5");
     (".simple", "import_utils.excel_reader"); (".rst", "import_utils.excel_reader");
     (".mediawiki", "import_utils.excel_reader");
     (".xlsx", "import_utils.excel_reader"); (".xls", "import_utils.excel_reader");
     (".xlsm", "import_utils.excel_reader");
     (".csv", "import_utils.text_reader"); (".tsv", "import_utils.text_reader");
     (".txt", "import_utils.text_reader"); (".ods", "import_utils.ods_reader")].

  (** The kinds of joins. *)
  Definition join_kinds : list string := ["inner"; "left"; "outer"; "cross"].

  (** [isinstance(v, int)] and the number it is. *)
  Definition int_of (v : V) : option Z :=
    match v with
    | VInt n => Some n
    | VBool b => Some (if b then 1 else 0)
    | _ => None
    end.

  (** 2^63 - 1, [sys.maxsize]. *)
  Definition maxsize : Z := 9223372036854775807.

  (** The settings that from_file accepts. *)
  Definition settings_ok (c : binding) : Prop :=
    (∃ v n, value_of c "start" = Some v ∧ int_of v = Some n ∧ 0 <= n <= maxsize)
    ∧ (∃ v n, value_of c "limit" = Some v ∧ int_of v = Some n ∧ 0 < n <= maxsize)
    ∧ (∃ b, value_of c "first_row_has_headers" = Some (VBool b)).

  (** What reaches the native reader of texts for a setting of from_file. *)
  Definition or_else (d v : V) : V := match v with VNone => d | _ => v end.

  Definition quote_text : string := String (Ascii.ascii_of_nat 34) "".
  Definition newline_text : string := String (Ascii.ascii_of_nat 10) "".

  Definition native_value (n : string) (v : V) : V :=
    if String.eqb n "header_row_index" then or_else (VInt 0) v
    else if String.eqb n "limit" then
      match v with
      | VInt m => if m =? maxsize then VNone else v
      | _ => v
      end
    else if String.eqb n "guess_datatypes" then or_else (VBool false) v
    else if String.eqb n "newline" then or_else (VStr newline_text) v
    else if String.eqb n "delimiter" then or_else (VStr ",") v
    else if String.eqb n "text_qualifier" then or_else (VStr quote_text) v
    else if String.eqb n "strip_leading_and_tailing_whitespace"
      then or_else (VBool true) v
    else if String.eqb n "skip_empty" then or_else (VStr "NONE") v
    else v.

  (** A text of one character. *)
  Definition single (v : V) : Prop := ∃ ch, v = VStr (String ch "").

  (** The settings of texts that the native reader knows. *)
  Definition native_names : list string :=
    ["columns"; "first_row_has_headers"; "header_row_index"; "start"; "limit";
     "guess_datatypes"; "newline"; "delimiter"; "text_qualifier";
     "strip_leading_and_tailing_whitespace"; "skip_empty"].

  (** The separator that the documentation of from_file gives an ending. *)
  Definition documented_delimiter (suffix : string) : option string :=
    if String.eqb suffix ".csv" then Some ","
    else if String.eqb suffix ".ssv" then Some ";"
    else if String.eqb suffix ".txt" then Some "|"
    else if String.eqb suffix ".tsv" then Some (String (Ascii.ascii_of_nat 9) "")
    else None.
End calls.
Arguments param : clear implicits.
Arguments signature : clear implicits.
Arguments binding : clear implicits.
