(** The methods of Table (tablite/core.py) as far as they hand the arguments of
    the caller to the functions of other modules, the joins of joins.py up to
    [joins.join], and from_file with the readers it chooses.

    Simplifications.
    - A call is the binding of its arguments to the parameters of the function
      (Spec/Calls.v); what the function does is not modelled here.
    - The objects that are only handed on are [VObj]; the default [_tqdm] and
      the default [TaskManager] are [VGlobal].
    - An unbound name of a body would be a NameError; the bodies below only use
      their parameters, [arg] of another name is [VNone].
    - FileNotFoundError, AssertionError and the Exception of nimlite are
      [OtherError]. *)
From Coq Require Import String.
From Verif.Spec Require Import Base Calls.
Local Open Scope string_scope.
Local Open Scope list_scope.
Local Open Scope Z_scope.

Section calls.
  Context {A : Type}.
  Notation V := (value A).
  Notation param := (param A).
  Notation signature := (signature A).
  Notation binding := (binding A).

  (** Parameters without a default, with the default None and with [tqdm]. *)
  Definition req (n : string) : param := (n, None).
  Definition opt (n : string) (v : V) : param := (n, Some v).
  Definition optn (n : string) : param := (n, Some VNone).
  Definition tq : param := ("tqdm", Some (VGlobal "tqdm")).

  Definition plain (ps : list param) : signature := Sig ps false [] false.

  (** ** The functions called and their parameters. *)

  (** joins.py:113-130: the four joins have the same parameters. *)
  Definition kind_join_sig : signature :=
    plain [req "T"; req "other"; req "left_keys"; req "right_keys";
           req "left_columns"; req "right_columns";
           opt "merge_keys" (VBool false); tq; optn "pbar"].

  (** joins.py:16-27. *)
  Definition joins_join_sig : signature :=
    plain [req "T"; req "other"; req "left_keys"; req "right_keys";
           req "left_columns"; req "right_columns";
           opt "kind" (VStr "inner"); opt "merge_keys" (VBool false);
           tq; optn "pbar"].

  (** import_utils.py:180 and 371: ods_reader has no parameter tqdm. *)
  Definition sheet_params : list param :=
    [req "T"; req "path"; opt "first_row_has_headers" (VBool true);
     opt "header_row_index" (VInt 0); optn "sheet"; optn "columns";
     opt "skip_empty" (VStr "NONE"); opt "start" (VInt 0);
     opt "limit" (VInt maxsize)].

  (** import_utils.py:570-589. *)
  Definition text_reader_sig : signature :=
    Sig [req "T"; req "path"; req "columns"; req "first_row_has_headers";
         req "header_row_index"; req "encoding"; req "start"; req "limit";
         req "newline"; req "guess_datatypes"; req "text_qualifier";
         req "strip_leading_and_tailing_whitespace"; req "skip_empty";
         req "delimiter"; req "text_escape_openings";
         req "text_escape_closures"; tq] false [] true.

  (** nimlite.py:73-86. *)
  Definition nimlite_text_sig : signature :=
    Sig [req "T"; req "pid"; req "path"; opt "encoding" (VStr "ENC_UTF8")] false
        [opt "first_row_has_headers" (VBool true);
         opt "header_row_index" (VInt 0); optn "columns"; optn "start";
         optn "limit"; opt "guess_datatypes" (VBool false);
         opt "newline" (VStr newline_text); opt "delimiter" (VStr ",");
         opt "text_qualifier" (VStr quote_text); req "quoting";
         opt "strip_leading_and_tailing_whitespace" (VBool true);
         opt "skip_empty" (VStr "NONE"); tq; optn "pbar"] false.

  (** libnimlite.nim:81-90. *)
  Definition native_text_sig : signature :=
    plain [req "pid"; req "path"; req "encoding"; req "columns";
           req "first_row_has_headers"; req "header_row_index"; req "start";
           req "limit"; req "guess_datatypes"; req "newline"; req "delimiter";
           req "text_qualifier"; req "strip_leading_and_tailing_whitespace";
           req "skip_empty"; req "page_size"; req "quoting"].

  (** The signatures of the functions: import_utils.py:40, 72, 112, 125, 180,
      371, 570; export_utils.py:12, 51, 63, 108, 139, 153, 204; redux.py:12, 34,
      88, 107, 350; sortation.py:17, 146, 165; nimlite.py:218, 331; pivots.py:11,
      185, 201; merge.py:7; joins.py:113-130; lookup.py:14; match.py:6;
      imputation.py:12; diff.py:8. *)
  Definition function_table : list (string * signature) :=
    [("import_utils.from_pandas", plain [req "T"; req "df"]);
     ("import_utils.from_hdf5", plain [req "T"; req "path"; tq; optn "pbar"]);
     ("import_utils.from_json", plain [req "T"; req "jsn"]);
     ("import_utils.from_html", plain [req "T"; req "path"; tq; optn "pbar"]);
     ("import_utils.excel_reader", Sig (sheet_params ++ [tq]) false [] true);
     ("import_utils.ods_reader", Sig sheet_params false [] true);
     ("import_utils.text_reader", text_reader_sig);
     ("export_utils.to_hdf5", plain [req "table"; req "path"]);
     ("export_utils.to_pandas", plain [req "table"]);
     ("export_utils.to_sql", plain [req "table"; req "name"]);
     ("export_utils.to_json", Sig [req "table"] true [] true);
     ("export_utils.excel_writer", plain [req "table"; req "path"]);
     ("export_utils.text_writer", plain [req "table"; req "path"; tq]);
     ("export_utils.to_html", plain [req "table"; req "path"]);
     ("redux._filter_using_expression", plain [req "T"; req "expression"]);
     ("redux.filter",
       plain [req "T"; req "expressions"; opt "filter_type" (VStr "all"); tq]);
     ("redux.filter_any", Sig [req "T"] false [] true);
     ("redux.filter_all", Sig [req "T"] false [] true);
     ("redux.drop", Sig [req "T"] true [] false);
     ("sortation.sort_index",
       plain [req "T"; req "mapping"; opt "sort_mode" (VStr "excel"); tq;
              optn "pbar"]);
     ("sortation.sort",
       plain [req "T"; req "mapping"; opt "sort_mode" (VStr "excel"); tq;
              optn "pbar"]);
     ("sortation.is_sorted",
       plain [req "T"; req "mapping"; opt "sort_mode" (VStr "excel")]);
     ("nimlite.groupby",
       plain [req "T"; req "keys"; req "functions"; tq; optn "pbar"]);
     ("nimlite.column_select",
       plain [req "table"; req "cols"; tq; optn "pbar";
              opt "TaskManager" (VGlobal "TaskManager")]);
     ("pivots.pivot",
       plain [req "T"; req "rows"; req "columns"; req "functions";
              opt "values_as_rows" (VBool true); tq; optn "pbar"]);
     ("pivots.transpose", plain [req "T"; tq]);
     ("pivots.pivot_transpose",
       plain [req "T"; req "columns"; optn "keep";
              opt "column_name" (VStr "transpose");
              opt "value_name" (VStr "value"); tq]);
     ("merge.where",
       plain [req "T"; req "criteria"; req "left"; req "right"; req "new"]);
     ("joins.left_join", kind_join_sig);
     ("joins.inner_join", kind_join_sig);
     ("joins.outer_join", kind_join_sig);
     ("joins.cross_join", kind_join_sig);
     ("lookup.lookup",
       Sig [req "T"; req "other"] true [opt "all" (VBool true); tq] false);
     ("match.match",
       Sig [req "T"; req "other"] true [optn "keep_left"; optn "keep_right"]
         false);
     ("imputation.imputation",
       plain [req "T"; req "targets"; optn "missing";
              opt "method" (VStr "carry forward"); optn "sources"; tq;
              optn "pbar"]);
     ("diff.diff", plain [req "T"; req "other"; optn "columns"])].

  Fixpoint entry {B} (l : list (string * B)) (n : string) : option B :=
    match l with
    | [] => None
    | (m, v) :: l => if String.eqb m n then Some v else entry l n
    end.

  (** A call in a body: the function, the positions and the names given. *)
  Record call := Call {
    cl_fun : string;
    cl_pos : list V;
    cl_kw : list (string * V) }.

  Definition do_call (c : call) : res (string * binding) :=
    match entry function_table (cl_fun c) with
    | None => Err AttributeError
    | Some s => res_map (pair (cl_fun c)) (bind_args s (cl_pos c) (cl_kw c))
    end.

  Definition arg (b : binding) (n : string) : V :=
    match value_of b n with Some v => v | None => VNone end.

  (** [n=n] in a call. *)
  Definition same (b : binding) (n : string) : string * V := (n, arg b n).

  Record method := Method {
    me_name : string;
    me_sig : signature;
    me_body : binding → res call }.

  (** ** core.py *)

  (** 735-811: the parameters of the methods for joins. *)
  Definition kind_join_method_sig : signature :=
    plain [req "self"; req "other"; req "left_keys"; req "right_keys";
           optn "left_columns"; optn "right_columns";
           opt "merge_keys" (VBool false); tq; optn "pbar"].

  (** 751-811 left_join, inner_join, outer_join, cross_join. *)
  Definition kind_join_body (f : string) (b : binding) : res call :=
    Ok (Call f
          [arg b "self"; arg b "other"; arg b "left_keys"; arg b "right_keys";
           arg b "left_columns"; arg b "right_columns"]
          [same b "merge_keys"; same b "tqdm"; same b "pbar"]).

  (** 221-249 from_pandas, 251-256 from_hdf5, 258-262 from_json, 264-286 the
      exports without a check, 330-364 expression and filter, 366-373
      sort_index, 406-439 sort, sorted, is_sorted, 441-481 any and all, 483-498
      drop, 524-614 groupby, 616-658 pivot, 660-702 merge, 704-733
      column_select, 751-811 the joins, 813-851 lookup and match, 857-904
      imputation, 906-907 transpose, 909-941 pivot_transpose, 943-954 diff. *)
  Definition methods : list method :=
    [Method "from_pandas" (plain [req "cls"; req "df"])
       (fun b => Ok (Call "import_utils.from_pandas" [arg b "cls"; arg b "df"] []));
     Method "from_hdf5" (plain [req "cls"; req "path"])
       (fun b => Ok (Call "import_utils.from_hdf5" [arg b "cls"; arg b "path"] []));
     Method "from_json" (plain [req "cls"; req "jsn"])
       (fun b => Ok (Call "import_utils.from_json" [arg b "cls"; arg b "jsn"] []));
     Method "to_hdf5" (plain [req "self"; req "path"])
       (fun b => Ok (Call "export_utils.to_hdf5" [arg b "self"; arg b "path"] []));
     Method "to_pandas" (plain [req "self"])
       (fun b => Ok (Call "export_utils.to_pandas" [arg b "self"] []));
     Method "to_sql" (plain [req "self"; req "name"])
       (fun b => Ok (Call "export_utils.to_sql" [arg b "self"; arg b "name"] []));
     Method "to_json" (plain [req "self"])
       (fun b => Ok (Call "export_utils.to_json" [arg b "self"] []));
     Method "expression" (plain [req "self"; req "expression"])
       (fun b => Ok (Call "redux._filter_using_expression"
                       [arg b "self"; arg b "expression"] []));
     Method "filter"
       (plain [req "self"; req "expressions"; opt "filter_type" (VStr "all"); tq])
       (fun b => Ok (Call "redux.filter"
                       [arg b "self"; arg b "expressions"; arg b "filter_type";
                        arg b "tqdm"] []));
     Method "sort_index"
       (Sig [req "self"; opt "sort_mode" (VStr "excel"); tq; optn "pbar"]
          false [] true)
       (fun b => Ok (Call "sortation.sort_index"
                       [arg b "self"; arg b "sort_mode"]
                       ([same b "tqdm"; same b "pbar"] ++ bd_kw b)));
     Method "sort"
       (plain [req "self"; req "mapping"; opt "sort_mode" (VStr "excel"); tq;
               optn "pbar"])
       (fun b => Ok (Call "sortation.sort"
                       [arg b "self"; arg b "mapping"; arg b "sort_mode"]
                       [same b "tqdm"; same b "pbar"]));
     Method "sorted"
       (plain [req "self"; req "mapping"; opt "sort_mode" (VStr "excel"); tq;
               optn "pbar"])
       (fun b => Ok (Call "sortation.sort"
                       [arg b "self"; arg b "mapping"; arg b "sort_mode"]
                       [same b "tqdm"; same b "pbar"]));
     Method "is_sorted"
       (plain [req "self"; req "mapping"; opt "sort_mode" (VStr "excel")])
       (fun b => Ok (Call "sortation.is_sorted"
                       [arg b "self"; arg b "mapping"; arg b "sort_mode"] []));
     Method "any" (Sig [req "self"] false [] true)
       (fun b => Ok (Call "redux.filter_any" [arg b "self"] (bd_kw b)));
     Method "all" (Sig [req "self"] false [] true)
       (fun b => Ok (Call "redux.filter_all" [arg b "self"] (bd_kw b)));
     Method "drop" (Sig [req "self"] true [] false)
       (fun b => match bd_star b with
                 | [] => Err ValueError
                 | _ => Ok (Call "redux.drop" (arg b "self" :: bd_star b) [])
                 end);
     Method "groupby"
       (plain [req "self"; req "keys"; req "functions"; tq; optn "pbar"])
       (fun b => Ok (Call "nimlite.groupby"
                       [arg b "self"; arg b "keys"; arg b "functions";
                        arg b "tqdm"; arg b "pbar"] []));
     Method "pivot"
       (plain [req "self"; req "rows"; req "columns"; req "functions";
               opt "values_as_rows" (VBool true); tq; optn "pbar"])
       (fun b => Ok (Call "pivots.pivot"
                       [arg b "self"; arg b "rows"; arg b "columns";
                        arg b "functions"; arg b "values_as_rows"]
                       [same b "tqdm"; same b "pbar"]));
     Method "merge"
       (plain [req "self"; req "left"; req "right"; req "new"; req "criteria"])
       (fun b => Ok (Call "merge.where"
                       [arg b "self"; arg b "criteria"; arg b "left";
                        arg b "right"; arg b "new"] []));
     Method "column_select"
       (plain [req "self"; req "cols"; tq;
               opt "TaskManager" (VGlobal "TaskManager")])
       (fun b => Ok (Call "nimlite.column_select" [arg b "self"; arg b "cols"]
                       [same b "tqdm"; same b "TaskManager"]));
     Method "left_join" kind_join_method_sig (kind_join_body "joins.left_join");
     Method "inner_join" kind_join_method_sig (kind_join_body "joins.inner_join");
     Method "outer_join" kind_join_method_sig (kind_join_body "joins.outer_join");
     Method "cross_join" kind_join_method_sig (kind_join_body "joins.cross_join");
     Method "lookup"
       (Sig [req "self"; req "other"] true [opt "all" (VBool true); tq] false)
       (fun b => Ok (Call "lookup.lookup"
                       (arg b "self" :: arg b "other" :: bd_star b)
                       [same b "all"; same b "tqdm"]));
     Method "match"
       (Sig [req "self"; req "other"] true [optn "keep_left"; optn "keep_right"]
          false)
       (fun b => Ok (Call "match.match"
                       (arg b "self" :: arg b "other" :: bd_star b)
                       [same b "keep_left"; same b "keep_right"]));
     Method "imputation"
       (plain [req "self"; req "targets"; optn "missing";
               opt "method" (VStr "carry forward"); optn "sources"; tq])
       (fun b => Ok (Call "imputation.imputation"
                       [arg b "self"; arg b "targets"; arg b "missing";
                        arg b "method"; arg b "sources"] [same b "tqdm"]));
     Method "transpose" (plain [req "self"; tq])
       (fun b => Ok (Call "pivots.transpose" [arg b "self"; arg b "tqdm"] []));
     Method "pivot_transpose"
       (plain [req "self"; req "columns"; optn "keep";
               opt "column_name" (VStr "transpose");
               opt "value_name" (VStr "value"); tq])
       (fun b => Ok (Call "pivots.pivot_transpose"
                       [arg b "self"; arg b "columns"; arg b "keep";
                        arg b "column_name"; arg b "value_name"]
                       [same b "tqdm"]));
     Method "diff" (plain [req "self"; req "other"; optn "columns"])
       (fun b => Ok (Call "diff.diff"
                       [arg b "self"; arg b "other"; arg b "columns"] []))].

  (** A method called with [vs] (the table first) and [kws]: the function it
      calls last and the values of its parameters. *)
  Definition run_method (m : method) (vs : list V) (kws : list (string * V))
    : res (string * binding) :=
    res_bind (bind_args (me_sig m) vs kws)
      (fun b => res_bind (me_body m b) do_call).

  Definition method_named (n : string) : option method :=
    List.find (fun m => String.eqb (me_name m) n) methods.

  Definition call_method (n : string) (vs : list V) (kws : list (string * V))
    : res (string * binding) :=
    match method_named n with
    | Some m => run_method m vs kws
    | None => Err AttributeError
    end.

  (** sortation.py:17-28: sort_index wants a dictionary (not empty); a
      dictionary is an object here. *)
  Definition sort_index_checked (r : res (string * binding))
    : res (string * binding) :=
    res_bind r (fun fb =>
      match value_of fb.2 "mapping" with
      | Some (VObj _) => Ok fb
      | _ => Err TypeError
      end).

  (** ** The joins *)

  (** joins.py:113-133: each of the four calls [join] with its kind. *)
  Definition kind_join (k : string) (b : binding) : res binding :=
    bind_args joins_join_sig
      [arg b "T"; arg b "other"; arg b "left_keys"; arg b "right_keys";
       arg b "left_columns"; arg b "right_columns"]
      [("kind", VStr k); same b "merge_keys"; same b "tqdm"; same b "pbar"].

  (** The function of joins.py that a method called is one of the four. *)
  Definition joined_by (fb : string * binding) : res binding :=
    if String.eqb fb.1 "joins.inner_join" then kind_join "inner" fb.2
    else if String.eqb fb.1 "joins.left_join" then kind_join "left" fb.2
    else if String.eqb fb.1 "joins.outer_join" then kind_join "outer" fb.2
    else if String.eqb fb.1 "joins.cross_join" then kind_join "cross" fb.2
    else Err AttributeError.

  (** core.py:751-811 with joins.py:113-133. *)
  Definition kind_join_method (name : string) (vs : list V)
      (kws : list (string * V)) : res binding :=
    res_bind (call_method name vs kws) joined_by.

  (** core.py:735-749 join: its parameters. *)
  Definition join_method_sig : signature :=
    plain [req "self"; req "other"; req "left_keys"; req "right_keys";
           optn "left_columns"; optn "right_columns";
           opt "kind" (VStr "inner"); opt "merge_keys" (VBool false); tq;
           optn "pbar"].

  (** 740-749: the method for the kind, or ValueError.  (A kind that cannot be
      hashed is a TypeError, not modelled.) *)
  Definition method_of_kind (v : V) : option string :=
    match v with
    | VStr k =>
        if String.eqb k "inner" then Some "inner_join"
        else if String.eqb k "left" then Some "left_join"
        else if String.eqb k "outer" then Some "outer_join"
        else if String.eqb k "cross" then Some "cross_join"
        else None
    | _ => None
    end.

  Definition join_method (vs : list V) (kws : list (string * V))
    : res binding :=
    res_bind (bind_args join_method_sig vs kws) (fun b =>
      match method_of_kind (arg b "kind") with
      | None => Err ValueError
      | Some f =>
          kind_join_method f
            [arg b "self"; arg b "other"; arg b "left_keys"; arg b "right_keys";
             arg b "left_columns"; arg b "right_columns"]
            [same b "merge_keys"; same b "tqdm"; same b "pbar"]
      end).

  (** ** Files *)
  Section files.
    (** The ending of a path with its dot, and whether there is a file or
        directory. *)
    Variable suffix : string → string.
    Variable file_there directory_there : string → bool.

    (** export_utils.py:146-150. *)
    Definition path_suffix_check (path : V) (kind : string) : res unit :=
      match path with
      | VPath p =>
          if String.eqb (suffix p) kind then
            if directory_there p then Ok tt else Err OtherError
          else Err ValueError
      | _ => Err AttributeError
      end.

    (** core.py:288-328: the ending and the writer of the six methods. *)
    Definition writer_table : list (string * (string * string)) :=
      [("to_xlsx", (".xlsx", "export_utils.excel_writer"));
       ("to_ods", (".ods", "export_utils.excel_writer"));
       ("to_csv", (".csv", "export_utils.text_writer"));
       ("to_tsv", (".tsv", "export_utils.text_writer"));
       ("to_text", (".txt", "export_utils.text_writer"));
       ("to_html", (".html", "export_utils.to_html"))].

    Definition writer_sig : signature := plain [req "self"; req "path"].

    Definition run_writer (w : string * string) (vs : list V)
        (kws : list (string * V)) : res (string * binding) :=
      res_bind (bind_args writer_sig vs kws) (fun b =>
        res_bind (path_suffix_check (arg b "path") w.1) (fun _ =>
          do_call (Call w.2 [arg b "self"; arg b "path"] []))).

    Definition write_method (name : string) (vs : list V)
        (kws : list (string * V)) : res (string * binding) :=
      match entry writer_table name with
      | Some w => run_writer w vs kws
      | None => Err AttributeError
      end.

    (** core.py:52-72 from_file: its parameters. *)
    Definition from_file_sig : signature :=
      plain [req "cls"; req "path"; optn "columns";
             opt "first_row_has_headers" (VBool true);
             opt "header_row_index" (VInt 0); optn "encoding";
             opt "start" (VInt 0); opt "limit" (VInt maxsize); optn "sheet";
             opt "guess_datatypes" (VBool true);
             opt "newline" (VStr newline_text); optn "text_qualifier";
             optn "delimiter";
             opt "strip_leading_and_tailing_whitespace" (VBool true);
             opt "text_escape_openings" (VStr "");
             opt "text_escape_closures" (VStr "");
             opt "skip_empty" (VStr "NONE"); tq].

    (** import_utils.py:633-648 file_readers; the endings here have the dot that
        core.py:166-168 takes away. *)
    Definition file_readers : list (string * string) :=
      [(".fods", "import_utils.excel_reader");
       (".json", "import_utils.excel_reader");
       (".html", "import_utils.from_html");
       (".hdf5", "import_utils.from_hdf5");
       (".simple", "import_utils.excel_reader");
       (".rst", "import_utils.excel_reader");
       (".mediawiki", "import_utils.excel_reader");
       (".xlsx", "import_utils.excel_reader");
       (".xls", "import_utils.excel_reader");
       (".xlsm", "import_utils.excel_reader");
       (".csv", "import_utils.text_reader");
       (".tsv", "import_utils.text_reader");
       (".txt", "import_utils.text_reader");
       (".ods", "import_utils.ods_reader")].

    (** core.py:148-150: a text becomes a path, anything else is a TypeError. *)
    Definition path_of (v : V) : res string :=
      match v with
      | VStr p | VPath p => Ok p
      | _ => Err TypeError
      end.

    (** core.py:155-159. *)
    Definition start_ok (v : V) : bool :=
      match int_of v with
      | Some n => (0 <=? n) && (n <=? maxsize)
      | None => false
      end.
    Definition limit_ok (v : V) : bool :=
      match int_of v with
      | Some n => (0 <? n) && (n <=? maxsize)
      | None => false
      end.

    (** core.py:177-212: the arguments of the reader. *)
    Definition reader_args (f : string) (p : string) (b : binding) : list V :=
      if String.eqb f "import_utils.text_reader" then
        [VPath p; arg b "columns"; arg b "first_row_has_headers";
         arg b "header_row_index"; arg b "encoding"; arg b "start";
         arg b "limit"; arg b "newline"; arg b "guess_datatypes";
         arg b "text_qualifier"; arg b "strip_leading_and_tailing_whitespace";
         arg b "skip_empty"; arg b "delimiter"; arg b "text_escape_openings";
         arg b "text_escape_closures"]
      else if String.eqb f "import_utils.from_html" then [VPath p]
      else if String.eqb f "import_utils.from_hdf5" then [VPath p]
      else if String.eqb f "import_utils.excel_reader" then
        [VPath p; arg b "first_row_has_headers"; arg b "header_row_index";
         arg b "sheet"; arg b "columns"; arg b "skip_empty"; arg b "start";
         arg b "limit"]
      else
        [VText (VPath p); arg b "first_row_has_headers";
         arg b "header_row_index"; arg b "sheet"; arg b "columns";
         arg b "skip_empty"; arg b "start"; arg b "limit"].

    (** core.py:148-218 from_file up to the call of the reader. *)
    Definition from_file (vs : list V) (kws : list (string * V))
      : res (string * binding) :=
      res_bind (bind_args from_file_sig vs kws) (fun b =>
      res_bind (path_of (arg b "path")) (fun p =>
        if negb (file_there p) then Err OtherError
        else if negb (start_ok (arg b "start")) then Err ValueError
        else if negb (limit_ok (arg b "limit")) then Err ValueError
        else match arg b "first_row_has_headers" with
        | VBool _ =>
            match entry file_readers (suffix p) with
            | None => Err ValueError
            | Some f =>
                do_call (Call f (arg b "cls" :: reader_args f p b)
                              [same b "tqdm"])
            end
        | _ => Err TypeError
        end)).

    (** The native name of an encoding, guessed from the file for None
        (utils.py:509-518, file_reader_utils.py:319-328). *)
    Variable native_encoding : string → V → res V.
    (** [Config.workdir / Config.pid] and [Config.PAGE_SIZE]. *)
    Variable pid : string.
    Variable page_size : Z.

    (** [if v is not None: kwargs[n] = v]. *)
    Definition unless_none (n : string) (v : V) : list (string * V) :=
      match v with VNone => [] | _ => [(n, v)] end.

    (** 606-607: the limit. *)
    Definition limit_kw (v : V) : list (string * V) :=
      match v with
      | VNone => []
      | VInt n => if n =? maxsize then [] else [("limit", VInt n)]
      | v => [("limit", v)]
      end.

    (** 614-618: the qualifier and the quoting. *)
    Definition qualifier_kw (v : V) : list (string * V) :=
      match v with
      | VNone => [("quoting", VStr "QUOTE_NONE")]
      | v => [("text_qualifier", v); ("quoting", VStr "QUOTE_MINIMAL")]
      end.

    (** 622-625: skip_empty. *)
    Definition skip_kw (v : V) : list (string * V) :=
      [("skip_empty", match v with VNone => VStr "NONE" | v => v end)].

    (** import_utils.py:590-631 text_reader. *)
    Definition import_text (b : binding) : res binding :=
      match arg b "path" with
      | VPath p =>
          res_bind (native_encoding p (arg b "encoding")) (fun enc =>
          bind_args nimlite_text_sig
            [arg b "T"; VPath pid; VPath p; enc]
            (unless_none "first_row_has_headers" (arg b "first_row_has_headers")
             ++ unless_none "header_row_index" (arg b "header_row_index")
             ++ unless_none "columns" (arg b "columns")
             ++ unless_none "start" (arg b "start")
             ++ limit_kw (arg b "limit")
             ++ unless_none "guess_datatypes" (arg b "guess_datatypes")
             ++ unless_none "newline" (arg b "newline")
             ++ unless_none "delimiter" (arg b "delimiter")
             ++ qualifier_kw (arg b "text_qualifier")
             ++ unless_none "strip_leading_and_tailing_whitespace"
                  (arg b "strip_leading_and_tailing_whitespace")
             ++ skip_kw (arg b "skip_empty")
             ++ [same b "tqdm"]))
      | _ => Err OtherError
      end.

    (** nimlite.py:97-111: the call of the native reader. *)
    Definition nimlite_text (b : binding) : res binding :=
      bind_args native_text_sig []
        [("pid", VText (arg b "pid")); ("path", VText (arg b "path"));
         same b "encoding"; same b "first_row_has_headers";
         same b "header_row_index"; same b "columns"; same b "start";
         same b "limit"; same b "guess_datatypes"; same b "newline";
         same b "delimiter"; same b "text_qualifier"; same b "quoting";
         same b "strip_leading_and_tailing_whitespace"; same b "skip_empty";
         ("page_size", VInt page_size)].

    (** libnimlite.nim:94-96: newline, delimiter and text_qualifier must be one
        character. *)
    Definition one_char (v : V) : bool :=
      match v with VStr s => Nat.eqb (String.length s) 1 | _ => false end.

    Definition native_check (b : binding) : res binding :=
      if one_char (arg b "newline") && one_char (arg b "delimiter")
         && one_char (arg b "text_qualifier")
      then Ok b else Err OtherError.

    (** from_file of a text file up to the native reader. *)
    Definition from_text_file (vs : list V) (kws : list (string * V))
      : res binding :=
      res_bind (from_file vs kws) (fun fb =>
        if String.eqb fb.1 "import_utils.text_reader" then
          res_bind (import_text fb.2) (fun b =>
          res_bind (nimlite_text b) native_check)
        else Err OtherError).
  End files.
End calls.
Arguments method : clear implicits.
