(** tablite/export_utils.py [excel_writer] (108-136) and [path_suffix_check] (146-150), tablite/core.py [to_xlsx], [to_ods] (288-300).

    Simplifications.  The rows given to pyexcel are the result.  What is read again from the file that pyexcel writes is the result of
    [stored] for each of them, a parameter, and all rows are there.  [str] of a float is the parameter [fshow].  FileNotFoundError is
    [OtherError]. *)
From Coq Require Import String.
From Verif.Spec Require Export SheetWritten.
From Verif.Model Require Export Table SheetReader.
From Verif.Model Require Export Codec JsonTable.
Local Open Scope list_scope.
Local Open Scope Z_scope.

Section Writer.
  Context (fshow : fval → text).

  (** 132: [isinstance(v, (int, float)) and abs(v) > 2**32 - 1]; a bool is an int *)
  Definition too_big (v : cval) : bool :=
    match v with
    | CBool b => 2 ^ 32 - 1 <? Z.abs (if b then 1 else 0)
    | CInt z => 2 ^ 32 - 1 <? Z.abs z
    | CFloat (Fin q) => negb (Qle_bool (Qabs.Qabs (this q)) (inject_Z (2 ^ 32 - 1)))
    | CFloat PosInf | CFloat NegInf => true
    | _ => false
    end.
  (** [str(v)] of a number *)
  Definition number_str (v : cval) : text :=
    match v with
    | CBool b => txt (if b then "True" else "False")
    | CInt z => int_show z
    | CFloat f => fshow f
    | _ => []
    end.
  Definition old_format_value (v : cval) : res cval :=
    if too_big v then Ok (CStr (number_str v)) else res_map value_of (Codec.to_json fshow v).

  (** 124-127 *)
  Definition gen {T} (t : table string cval T) : res (list (list cval)) :=
    res_map (cons (map (λ n, CStr (txt n)) t.*1)) (tbl_rows CNone t).
  (** 129-136 *)
  Definition excel_writer {T} (suffix : string) (t : table string cval T) : res (list (list cval)) :=
    res_bind (gen t) (λ data,
      if bool_decide (suffix ∈ [".xls"; ".ods"]%string) then map_res (map_res old_format_value) data else Ok data).

  (** 146-150, core.py 288-300; [kind] is ".xlsx" or ".ods" *)
  Definition to_sheet {T} (kind suffix : string) (parent_exists : bool) (t : table string cval T) : res (list (list cval)) :=
    if negb (bool_decide (suffix = kind)) then Err ValueError
    else if negb parent_exists then Err OtherError
    else excel_writer suffix t.
End Writer.

(** the cell for a value; [fbits] are the bits of a float *)
Definition sheet_cell (fbits : fval → Z) (v : cval) : xcell cval :=
  match v with
  | CNone => XNone
  | CBool b => XBool b
  | CInt z => XInt z
  | CFloat f => XFloat (fbits f)
  | CStr s => XStr (toRunes (map (λ c, Z.of_N (N_of_ascii c)) s))
  | v => XObj v
  end.

(** For the examples: str of a name read from a sheet. *)
Definition sheet_name (v : xcell cval) : string :=
  match v with XStr s => string_of_list_ascii (map (λ c, ascii_of_N (Z.to_N c)) s) | _ => "" end.

(** For the statements: a value and what the older formats hold of it: itself, or a text from which the type of the value reads it
    again (C52, C53). *)
Definition held (fread : text → option fval) (v w : cval) : Prop :=
  (written_plain v → w = v) ∧
  (¬ written_plain v → ∃ s, w = CStr s ∧
     match v with
     | CInt _ | CFloat _ => from_type_code fread s (type_code v) = Ok v
     | _ => from_json fread false (JStr s) (type_of v) = Ok v
     end).
