(** What is asked for in a column selection, on its way to the tasks:
    nimlite/funcs/column_selector/collectinfo.nim 70-120 (reading the entries of the
    argument), infos.nim 22-45 (to Python and back), nimlite/pytypes.nim 8-18,
    tablite/nimlite.py 206-250, libnimlite.nim 32-36; makepage.nim 77-86 (names of types
    in reasons).  The numbering of repeated names is that of Model/ColumnSelect.v.

    Simplifications: an entry is a dict with texts as keys; nimpy's [to(string)] of
    anything but a text is TypeError; [truth] is nimpy's [to(bool)] of an object that is
    no bool; [strip] is Python's; [toLower] changes letters of ASCII only. *)
From Coq Require Import Ascii String.
From Verif.Spec Require Import Base TaskSettings SelectRequests.
From Verif.Model Require Import Dict ColumnSelect EncFile.
Local Open Scope string_scope.
Local Open Scope list_scope.

(** collectinfo.nim 70-79; FieldDefect *)
Definition toPageType (name : string) : res knd8 :=
  let lower := string_map ascii_lower name in
  if decide (lower = "int") then Ok K_INT
  else if decide (lower = "float") then Ok K_FLOAT
  else if decide (lower = "bool") then Ok K_BOOLEAN
  else if decide (lower = "str") then Ok K_STRING
  else if decide (lower = "date") then Ok K_DATE
  else if decide (lower = "time") then Ok K_TIME
  else if decide (lower = "datetime") then Ok K_DATETIME
  else Err OtherError.

(** makepage.nim 77-86 *)
Definition getTypeUserName (k : knd8) : string :=
  match k with
  | K_BOOLEAN => "bool" | K_INT => "int" | K_FLOAT => "float" | K_STRING => "str"
  | K_DATE => "date" | K_TIME => "time" | K_DATETIME => "datetime" | K_NONETYPE => "NoneType"
  end.

(** Nim's [$] of the enumeration, pytypes/pyobjs.nim 12-20 *)
Definition kind_text (k : knd8) : string :=
  match k with
  | K_NONETYPE => "K_NONETYPE" | K_BOOLEAN => "K_BOOLEAN" | K_INT => "K_INT" | K_FLOAT => "K_FLOAT"
  | K_STRING => "K_STRING" | K_DATE => "K_DATE" | K_TIME => "K_TIME" | K_DATETIME => "K_DATETIME"
  end.

(** pytypes.nim 8-18 *)
Definition str2ObjKind (s : string) : res knd8 :=
  if decide (s = "K_NONETYPE") then Ok K_NONETYPE
  else if decide (s = "K_BOOLEAN") then Ok K_BOOLEAN
  else if decide (s = "K_INT") then Ok K_INT
  else if decide (s = "K_FLOAT") then Ok K_FLOAT
  else if decide (s = "K_STRING") then Ok K_STRING
  else if decide (s = "K_DATE") then Ok K_DATE
  else if decide (s = "K_TIME") then Ok K_TIME
  else if decide (s = "K_DATETIME") then Ok K_DATETIME
  else Err ValueError.

Section requests.
  Context (strip : string → string) (truth : jvalue → res bool).
  Notation request := (request (K := knd8)).
  Notation desired := (desired (K := knd8)).
  Notation dict := (list (string * jvalue)).

  (** collectinfo.nim 95-103 *)
  Definition read_rename (v : jvalue) : res (option string) :=
    match v with
    | JText rename =>
        if decide (rename = "") then Ok None
        else let nameOutStripped := strip rename in
             if decide (nameOutStripped = "") then Err ValueError else Ok (Some nameOutStripped)
    | _ => Ok None
    end.

  (** collectinfo.nim 113-119 *)
  Definition read_type (v : jvalue) : res (option knd8) :=
    match v with
    | JNone => Ok None
    | JText s => res_map Some (toPageType s)
    | _ => Err TypeError
    end.
  Definition read_allow (v : jvalue) : res bool := match v with JBool b => Ok b | _ => truth v end.

  (** collectinfo.nim 92-120: an entry *)
  Definition read_entry (c : dict) : res request :=
    res_bind (match dget c "column" with Some (JText s) => Ok s | Some _ => Err TypeError | None => Err KeyError end) (λ nameInp,
    res_bind (read_rename (dget_or c "rename" JNone)) (λ rename,
    res_bind (read_type (dget_or c "type" JNone)) (λ type,
    res_bind (read_allow (dget_or c "allow_empty" (JBool false))) (λ allow,
    Ok (Request nameInp rename type allow))))).

  (** 92-120: all of them *)
  Fixpoint read_entries (cols : list dict) (s : list (string * desired) * list (string * N)) :
      res (list (string * desired)) :=
    match cols with
    | [] => Ok s.1
    | c :: cols => res_bind (read_entry c) (λ r, read_entries cols (add_desired K_NONETYPE s r))
    end.
  Definition desiredColumnMap (cols : list dict) : res (list (string * desired)) := read_entries cols ([], []).

  (** infos.nim 22-29 *)
  Definition infos_toPyObj (infos : list (string * desired)) : list (string * (string * string * bool)) :=
    fold_left (λ d e, dset d e.1 (d_orig e.2, kind_text (d_type e.2), d_allow e.2)) infos [].

  (** infos.nim 31-45 *)
  Fixpoint fromPyObj_loop (pyInfos todo : list (string * (string * string * bool))) (res : list (string * desired)) :
      Base.res (list (string * desired)) :=
    match todo with
    | [] => Ok res
    | (k, _) :: todo =>
        match dget pyInfos k with
        | None => Err KeyError
        | Some (pyName, pyType, pyAllowEmpty) =>
            res_bind (str2ObjKind pyType) (λ type,
            fromPyObj_loop pyInfos todo (dset res k (Desired k pyName type pyAllowEmpty)))
        end
    end.
  Definition fromPyObjToDesiredInfos (pyInfos : list (string * (string * string * bool))) : res (list (string * desired)) :=
    fromPyObj_loop pyInfos pyInfos [].

  (** nimlite.py 216-250 and libnimlite.nim 32-36: what a task gets *)
  Definition task_infos (cols : list dict) : res (list (string * desired)) :=
    res_bind (desiredColumnMap cols) (λ m, fromPyObjToDesiredInfos (infos_toPyObj m)).
End requests.
