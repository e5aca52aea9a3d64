(** tablite/utils.py [calc_col_count] (424-432), [calc_true_dims] (435-458), [fixup_worksheet] (461-468).

    Simplifications.  The elements "c" of the worksheet are the list of their attributes "r" ([None]: the attribute is missing), texts of ASCII characters. The XML parser is not
    modelled. *)
From Verif.Spec Require Export PyList.
From Verif.Model Require Export PyInfer.
Local Open Scope Z_scope.

(** 424-432 *)
Definition calc_col_count (letters : list Z) : Z :=
  let ord_nil := 65 - 1 in
  let cols_per_letter := 90 - ord_nil in
  fold_left (λ col_count p, col_count + (p.2 - ord_nil) * cols_per_letter ^ Z.of_nat p.1)
    (zip (seq 0 (length letters)) (rev letters)) 0.

(** 446: [next(regex.finditer(last_index)).span()]: the position of the first digit *)
Fixpoint first_digit (s : list Z) : option nat :=
  match s with
  | [] => None
  | c :: s => if (48 <=? c) && (c <=? 57) then Some 0%nat else S <$> first_digit s
  end.

(** 439-458 *)
Fixpoint true_dims (refs : list (option (list Z))) (max_col max_row : Z) : res (Z * Z) :=
  match refs with
  | [] => Ok (max_col, max_row)
  | None :: _ => Err KeyError
  | Some last_index :: refs =>
      match first_digit last_index with
      | None => Err OtherError (* StopIteration *)
      | Some idx =>
          let letters := take idx last_index in
          res_bind (py_int (drop idx last_index)) (λ row_idx,
            true_dims refs (Z.max max_col (calc_col_count letters)) (Z.max max_row row_idx))
      end
  end.
Definition calc_true_dims (refs : list (option (list Z))) : res (Z * Z) := true_dims refs 0 0.

(** 461-468; [dims] is what openpyxl had *)
Definition fixup_worksheet {D} (dims : D) (of_dims : Z * Z → D) (refs : list (option (list Z))) : D :=
  match calc_true_dims refs with Ok d => of_dims d | Err _ => dims end.
