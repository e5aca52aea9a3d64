(** tablite/import_utils.py [excel_reader] (180-368), [_fix_xls_page] (652-688) and [ods_reader] (371-421), tablite/utils.py
    [strip_escape] (517-533), [calc_col_count] (424-432), [calc_true_dims] (435-458).

    Simplifications.  A worksheet is the list of its rows of cell values ([iter_rows] of openpyxl: Model/Sheets.v); an ODS sheet is
    the list that pandas gives, [None] for empty cells.  [str] of a value is a parameter, as are [pkl.dumps] and [pkl.loads].  UTF-8 is decoded as by nim's
    [toRunes], which differs from Python only on bytes that are not UTF-8.  [list_to_np_array] keeps the values (C01).  [struct.error] and
    NotImplementedError are [OtherError].  [header_row_index] is not negative. *)
From Coq Require Import String.
From Verif.Spec Require Export SheetCells.
From Verif.Model Require JsonTable.
From Verif.Model Require Export Table Names Sheets Pickle Npy.
Local Open Scope list_scope.
Local Open Scope Z_scope.

(** utils.py 517-533: six replacements of a character by nothing *)
Definition strip_escape {O} (v : xcell O) : xcell O :=
  match v with
  | XStr s => XStr (fold_left (λ s i, filter (λ c, c ≠ i) s) [9; 10; 13; 9; 10; 13] s)
  | _ => v
  end.

Local Notation map_res := JsonTable.map_res.

Section Reader.
  Context {O T : Type} `{EqDecision O, EqDecision T} (ty : xcell O → T) (ps : Z).
  Context (str : xcell O → string) (dumps : O → list Z) (loads : list Z → O).
  Local Notation table := (table string (xcell O) T).

  (** import_utils.py 338-352: one letter and the bytes *)
  Definition pack_value (value : xcell O) : res (Z * list Z) :=
    match value with
    | XInt z => if (- 2 ^ 63 <=? z) && (z <? 2 ^ 63) then Ok (113, le_bytes 8 z) else Err OtherError
    | XFloat bits => Ok (100, le_bytes 8 bits)
    | XStr s => if forallb (λ c, (0 <=? c) && (c <? 0x110000) && negb ((0xD800 <=? c) && (c <=? 0xDFFF))) s
                then Ok (115, utf8 s) else Err ValueError
    | XBool b => Ok (98, [if b then 49 else 48])
    | XNone => Ok (110, [])
    | XObj o => Ok (112, dumps o)
    | XOther => Err OtherError
    end.
  (** 355-360: what is written to the file *)
  Definition pack (value : xcell O) : res (list Z) :=
    res_bind (pack_value value) (λ p,
      if zlen p.2 <? 2 ^ 32 then Ok (p.1 :: le_bytes 4 (zlen p.2) ++ p.2) else Err OtherError).

  (** 667-681 *)
  Definition unpack_value (ptype : Z) (pvalue : list Z) : res (xcell O) :=
    if ptype =? 113 then if (length pvalue =? 8)%nat then Ok (XInt (signed 8 (le_value pvalue))) else Err OtherError
    else if ptype =? 100 then if (length pvalue =? 8)%nat then Ok (XFloat (le_value pvalue)) else Err OtherError
    else if ptype =? 115 then Ok (XStr (toRunes pvalue))
    else if ptype =? 98 then Ok (XBool (bool_decide (pvalue = [49])))
    else if ptype =? 110 then Ok XNone
    else if ptype =? 112 then Ok (XObj (loads pvalue))
    else Err OtherError.
  (** 663-683; [fuel] bounds the number of values *)
  Fixpoint unpack (fuel : nat) (file : list Z) : res (list (xcell O)) :=
    match file with
    | [] => Ok []
    | ptype :: file =>
        match fuel with
        | 0%nat => Err OtherError
        | S fuel =>
            if (length (take 4 file) =? 4)%nat then
              let psize := Z.to_nat (le_value (take 4 file)) in
              let rest := drop 4 file in
              res_bind (unpack_value ptype (take psize rest)) (λ v, res_map (cons v) (unpack fuel (drop psize rest)))
            else Err OtherError
        end
    end.

  (** 652-688 *)
  Definition _fix_xls_page (t : table) (col_name : string) (fh : list Z) : res table :=
    res_bind (unpack (length fh) fh) (λ page_values,
      match dget t col_name with
      | Some c => Ok (dset t col_name (col_extend ty ps c page_values))
      | None => Err KeyError
      end).
  Fixpoint fix_pages (t : table) (l : list (string * list Z)) : res table :=
    match l with
    | [] => Ok t
    | (c, fh) :: l => res_bind (_fix_xls_page t c fh) (λ t, fix_pages t l)
    end.

  (** 324-360 for one row: the open files get the values *)
  Fixpoint write_row (fhs : list (list Z)) (row : list (xcell O)) : res (list (list Z)) :=
    match fhs, row with
    | fh :: fhs, v :: row => res_bind (pack v) (λ b, res_map (cons (fh ++ b)) (write_row fhs row))
    | _, _ => Ok fhs
    end.

  (** 298-368: the loop over the rows *)
  Definition all_none (row : list (xcell O)) : bool := forallb (λ v, bool_decide (v = XNone)) row.
  Definition any_none (row : list (xcell O)) : bool := existsb (λ v, bool_decide (v = XNone)) row.
  Fixpoint read_rows (s : skip) (used : list nat) (names : list string) (rows : list (list (xcell O)))
      (t : table) (page_fhs : option (list (list Z))) (idx : Z) : res table :=
    match rows with
    | [] => match page_fhs with Some fhs => fix_pages t (zip names fhs) | None => Ok t end
    | cells :: rows =>
        res_bind (map_res (λ i, match cells !! i with Some v => Ok (strip_escape v) | None => Err IndexError end) used) (λ row,
          if match s with SkipAll => all_none row | SkipAny => any_none row | SkipNone => false end
          then read_rows s used names rows t page_fhs idx
          else
            res_bind (if idx mod ps =? 0 then
                        res_map (λ t, (t, replicate (length names) []))
                          (match page_fhs with Some fhs => fix_pages t (zip names fhs) | None => Ok t end)
                      else Ok (t, default [] page_fhs)) (λ r,
              res_bind (write_row r.2 row) (λ fhs, read_rows s used names rows r.1 (Some fhs) (idx + 1))))
    end.

  (** [fields.index(k)] *)
  Fixpoint index_of (k : string) (fields : list string) : option nat :=
    match fields with
    | [] => None
    | f :: fields => if decide (f = k) then Some 0%nat else S <$> index_of k fields
    end.

  (** 225-244: [field_dict] *)
  Definition field_dict (columns : option (list string)) (fields : list string) : res (list (string * nat)) :=
    match columns with
    | None => match dedup_headers fields with
              | Some cs => Ok (zip cs (seq 0 (length cs)))
              | None => Err OtherError
              end
    | Some cs => fold_left (λ acc k, res_bind acc (λ d,
                   match index_of k fields with
                   | Some i => match unique_name k d.*1 with Some n => Ok (dset d n i) | None => Err OtherError end
                   | None => Err ValueError
                   end)) cs (Ok [])
    end.

  (** 206-368 *)
  Definition excel_reader (rows : list (list (xcell O))) (max_row : option Z) (has_headers : bool) (header_row_index : Z)
      (columns : option (list string)) (s : skip) (start limit : Z) : res table :=
    if start <? 0 then Err ValueError
    else if limit <=? 0 then Err ValueError
    else
      match znth rows header_row_index with
      | None => Ok []
      | Some header =>
          let fields := map (λ c, match strip_escape c with XNone => ""%string | v => str v end) header in
          let fields := if has_headers then fields else map (λ i, pretty (N.of_nat i)) (seq 0 (length fields)) in
          res_bind (field_dict columns fields) (λ d,
            read_rows s d.*2 d.*1 (excel_rows rows has_headers header_row_index max_row start limit)
              (map (λ n, (n, [])) d.*1) None 0)
      end.

  (** 386-393 *)
  Definition ods_blank (v : xcell O) : bool := match v with XNone => true | XStr s => bool_decide (s = []) | _ => false end.
  Definition ods_skip (s : skip) (has_headers : bool) (header_row_index : Z) (data : list (list (xcell O))) : list (list (xcell O)) :=
    match s with
    | SkipNone => data
    | _ => map snd (filter (λ p, Z.of_nat p.1 < header_row_index + (if has_headers then 1 else 0)
                             ∨ match s with SkipAll => existsb (λ v, negb (ods_blank v)) p.2 | _ => forallb (λ v, negb (ods_blank v)) p.2 end = true)
                      (zip (seq 0 (length data)) data))
    end.
  (** 397-421; [used] are the names given *)
  Fixpoint ods_columns (has_headers : bool) (columns : option (list string)) (rows : list (list (xcell O))) (used : list string)
      (ix : nat) (header_row : list (xcell O)) (t : table) : res table :=
    match header_row with
    | [] => Ok t
    | value :: header_row =>
        let header := if has_headers then match value with XNone => ""%string | v => str v end
                      else ("_" +:+ pretty (N.of_nat ix + 1)%N)%string in
        if match columns with Some cs => negb (bool_decide (header ∈ cs)) | None => false end
        then ods_columns has_headers columns rows used (S ix) header_row t
        else
          match unique_name header used with
          | None => Err OtherError
          | Some n =>
              res_bind (map_res (λ row : list (xcell O), match row !! ix with Some v => Ok v | None => Err IndexError end) rows) (λ vs,
                ods_columns has_headers columns rows (used ++ [n]) (S ix) header_row (tbl_set ty ps t n vs))
          end
    end.
  Definition ods_reader (data : list (list (xcell O))) (has_headers : bool) (header_row_index : Z) (columns : option (list string))
      (s : skip) (start limit : Z) : res table :=
    let data := ods_skip s has_headers header_row_index data in
    if start <? 0 then Err ValueError
    else if limit <=? 0 then Err ValueError
    else
      match znth data header_row_index with
      | None => Err IndexError
      | Some header_row =>
          ods_columns has_headers columns (ods_rows data has_headers header_row_index start limit) [] 0 header_row []
      end.
End Reader.
