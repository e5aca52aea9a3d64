(** tablite/base.py 1682-1857: tables as text ([display_dict], [to_ascii], [show]) and as HTML
    ([_repr_html_]), utils.py 412-421 [dict_to_rows], export_utils.py 204-208 [to_html] and
    import_utils.py 125-170 [from_html].

    Texts are lists of characters; names are texts.  [str] of a value is a parameter.  The row
    numbers of long tables have [ceil(log10(n))] computed exactly. *)
From Coq Require Import String.
From Verif.Model Require Export Export.
Local Open Scope string_scope.
Local Open Scope list_scope.
Local Open Scope Z_scope.

(** ** Python's standard library *)
Definition blanks_of (k : Z) : list Z := replicate (Z.to_nat k) 32.
Definition ljust (s : list Z) (w : Z) : list Z := s ++ blanks_of (w - zlen s).
Definition rjust (s : list Z) (w : Z) : list Z := blanks_of (w - zlen s) ++ s.
(** CPython's [unicode_center_impl] *)
Definition center (s : list Z) (w : Z) : list Z :=
  let marg := w - zlen s in
  let left := marg / 2 + (if Z.odd marg && Z.odd w then 1 else 0) in
  if w <=? zlen s then s else blanks_of left ++ s ++ blanks_of (marg - left).

(** [f"{i:,}"] for [0 <= i] *)
Fixpoint group3 (l : list Z) : list Z :=
  match l with
  | a :: b :: c :: (_ :: _) as r => a :: b :: c :: 44 :: group3 r
  | _ => l
  end.
Definition thousands (i : Z) : list Z := rev (group3 (rev (python_int i))).

Fixpoint join_texts (sep : list Z) (l : list (list Z)) : list Z :=
  match l with
  | [] => []
  | [x] => x
  | x :: l => x ++ sep ++ join_texts sep l
  end.

Section Display.
  Context {T : Type} `{EqDecision T} (type_name : T → list Z) (str : cell → list Z).
  Local Notation tbl := (table (list Z) cell T).
  Context (t : tbl) (slice_ : option pyslice) (blanks : cell) (dtype : bool).

  (** base.py 1702-1712 *)
  Definition datatype (c : column cell T) : list Z :=
    match col_types c with
    | [] => bytes_of "empty"
    | [(dt, _)] => type_name dt
    | _ => bytes_of "mixed"
    end.

  (** base.py 1714-1719: without a free one the last tag is left *)
  Definition row_count_tags : list (list Z) :=
    concat (map (λ n, map (λ tag, replicate n tag) [35; 126; 42]) (seq 1 5)).
  Definition row_tag : list Z := default [42] (head (filter (λ tag, tag ∉ t.*1) row_count_tags)).

  (** base.py 1723-1729 *)
  Definition display_slice : option pyslice :=
    match slice_ with
    | Some s => Some s
    | None => if tbl_len t <=? 20 then Some (Slice (Some 0) (Some 20) (Some 1)) else None
    end.

  (** base.py 1741 *)
  Definition number_width (n : Z) : Z :=
    (if 10 ^ (zlen (python_int n) - 1) =? n then zlen (python_int n) - 1 else zlen (python_int n)) / 3 + zlen (python_int n).

  (** base.py 1749-1757 *)
  Definition long_column (n : Z) (c : column cell T) : res (list cell) :=
    if col_len c =? n then
      res_bind (col_getslice c (Slice None (Some 7) None)) (λ first,
      res_bind (col_getslice c (Slice (Some (-7)) None None)) (λ last,
      Ok (first ++ [CStr (bytes_of "...")] ++ last)))
    else
      let empty := replicate 7 blanks in
      res_bind (col_getslice c (Slice None (Some 7) None)) (λ first,
      res_bind (col_getslice c (Slice (Some (n - 7)) None None)) (λ last,
      Ok (py_getslice (first ++ empty) (Slice None (Some 7) None) ++ [CStr (bytes_of "...")] ++
          py_getslice (last ++ empty) (Slice (Some (-7)) None None)))).

  Fixpoint fill_data (column_of : column cell T → res (list cell)) (cols : tbl) (data : list (list Z * list cell))
      : res (list (list Z * list cell)) :=
    match cols with
    | [] => Ok data
    | c :: cols => res_bind (column_of c.2) (λ l, fill_data column_of cols (dset data c.1 l))
    end.

  (** base.py 1682-1767 *)
  Definition display_dict : res (list (list Z * list cell)) :=
    let n := tbl_len t in
    let data :=
      match display_slice with
      | Some s =>
          if sl_stepv s =? 0 then Err ValueError
          else
            let '(start, stop, step) := slice_indices s n in
            let row_no := py_range start stop step in
            fill_data (λ c, Ok (py_getslice (col_iter c ++ replicate (Z.to_nat (n - col_len c)) blanks) s)) t
              [(row_tag, map (λ i, CStr (rjust (thousands i) 2)) row_no)]
      | None =>
          let j := number_width n in
          let number i := CStr (rjust (thousands i) j) in
          fill_data (long_column n) t
            [(row_tag, map number (py_range 0 7 1) ++ [CStr (bytes_of "...")] ++ map number (py_range (n - 7) n 1))]
      end in
    if dtype then
      res_map (map (λ d, match dget t d.1 with
                         | Some c => (d.1, CStr (datatype c) :: d.2)
                         | None => (d.1, CStr (bytes_of "row") :: d.2)
                         end)) data
    else data.

  (** ** [to_ascii] *)

  (** base.py 1778-1785 *)
  Definition adjust (v : cell) (length : Z) : list Z :=
    match v with
    | CNone => ljust (str blanks) length
    | CStr s => ljust s length
    | _ => rjust (str v) length
    end.
  Definition center_first (w : Z) (values : list cell) : list cell :=
    match values with CStr s :: values => CStr (center s w) :: values | _ => values end.

  (** base.py 1790-1800 *)
  Definition ascii_dict (data : list (list Z * list cell)) : list (list Z * list (list Z)) :=
    fold_left (λ d p,
      let width := fold_left (λ m s, Z.max m (zlen s)) (map str p.2) (zlen p.1) in
      let values := if dtype then center_first width p.2 else p.2 in
      dset d (center p.1 width) (map (λ v, adjust v width) values)) data [].

  (** utils.py 412-421 *)
  Definition dict_to_rows {A} (d : list (list Z * list A)) : res (list (list A)) :=
    let max_length := fold_left (λ m p, Nat.max m (List.length p.2)) d 0%nat in
    foldr (λ i rows, res_bind rows (λ rows,
      match mapM (λ p : list Z * list A, p.2 !! i) d with
      | Some row => Ok (row :: rows)
      | None => Err IndexError
      end)) (Ok []) (seq 0 max_length).

  (** base.py 1802-1818 and 1851-1853 *)
  Definition warning : list (list Z) :=
    let lengths := map (λ c, col_len c.2) t in
    if forallb (λ l, l =? default 0 (head lengths)) lengths then []
    else [bytes_of "Warning: Columns have different lengths. " ++ str blanks ++ bytes_of " is used as fill value."].
  Definition border (c : Z) (names : list (list Z)) : list Z :=
    [43] ++ join_texts [43] (map (λ n, replicate (length n) c) names) ++ [43].
  Definition bar (row : list (list Z)) : list Z := [124] ++ join_texts [124] row ++ [124].
  Definition ascii_lines : res (list (list Z)) :=
    res_bind display_dict (λ data,
    let d := ascii_dict data in
    res_map (λ rows,
      let names := d.*1 in
      [border 61 names; bar names] ++ (if dtype then map bar (take 1 rows) else []) ++ [border 45 names] ++
      map bar (if dtype then drop 1 rows else rows) ++ [border 61 names] ++ warning) (dict_to_rows d)).
  Definition to_ascii : res (list Z) :=
    if decide (t = []) then Ok (bytes_of "Table(0 columns, 0 rows)") else res_map (join_texts [10]) ascii_lines.

  (** ** [_repr_html_]: base.py 1830-1857 *)
  Definition html_row (row : list (list Z)) : list Z :=
    bytes_of "<tr>" ++ concat (map (λ cn, bytes_of "<th>" ++ cn ++ bytes_of "</th>") row) ++ bytes_of "</tr>".
  Definition repr_html : res (list Z) :=
    let start := bytes_of "<div><table border=1>" in
    let end_ := bytes_of "</table></div>" in
    if decide (t = []) then Ok (start ++ bytes_of "<tr>Empty Table</tr>" ++ end_)
    else
      res_bind display_dict (λ data,
      res_map (λ rows, start ++ html_row data.*1 ++ concat (map (λ row, html_row (map str row)) rows) ++ end_ ++ concat warning)
        (dict_to_rows data)).
End Display.

(** ** [from_html] *)

(** [s.find(sub, start)]: a negative [start] counts from the end *)
Fixpoint find_from (sub s : list Z) (i : Z) : Z :=
  if decide (take (length sub) s = sub) then i
  else match s with [] => -1 | _ :: s => find_from sub s (i + 1) end.
Definition py_find (s sub : list Z) (start : Z) : Z :=
  let from := if start <? 0 then Z.max 0 (start + zlen s) else start in
  if zlen s <? from then -1 else find_from sub (drop (Z.to_nat from) s) from.

(** import_utils.py 141-150: the loop until a row is found or the file is at its end; [reads] are the
    pieces the file is read in.  [None]: the end. *)
Fixpoint html_scan (chunk : list Z) (start end_ : Z) (reads : list (list Z)) : option (list Z * Z * Z * list (list Z)) :=
  let start := py_find chunk (bytes_of "<tr>") start in
  let end_ := py_find chunk (bytes_of "</tr>") end_ in
  if (start =? -1) || (end_ =? -1) then
    match reads with
    | [] => None
    | new :: reads => if decide (new = []) then None else html_scan (chunk ++ new) start end_ reads
    end
  else Some (chunk, start, end_, reads).

(** import_utils.py 125-173; [rows]: what is done from the first row on (151-170).  At the end of the file
    [data] is empty and [t], which is None, is returned. *)
Definition from_html {R} (rows : list Z * Z * Z * list (list Z) → res (option R)) (reads : list (list Z)) : res (option R) :=
  match html_scan [] 0 0 reads with
  | Some found => rows found
  | None => Ok None
  end.
