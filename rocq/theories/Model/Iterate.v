(** nimlite/numpy.nim: the iterators of pages and columns (1311-1425), the item of a column (1441-1452), the kinds of a column
    (883-924), and [read_page] (libnimlite.nim 21; numpy.nim 765-852).

    Simplifications: arrays of one dimension; an iterator is the list of what it yields and the exception after it; bounds are
    checked and conversions of objects fail as in a debug build ([IndexError], [OtherError]); the bytes of a page are those of
    Model/Npy.v, here a page is its values; the value nil that a None becomes (800) is None for Python. *)
From Verif.Spec Require Export Iterate.
From Verif.Model Require Import Hdf5.
Local Open Scope list_scope.
Local Open Scope Z_scope.

Definition yielded : Type := list cell * option exn.

(** 882-891 *)
Definition get_page_types (p : native_page) : list (kind * Z) :=
  match page_array p with
  | ABool => [(KBool, zlen (page_cells p))]
  | AInt8 | AInt16 | AInt32 | AInt64 => [(KInt, zlen (page_cells p))]
  | AFloat32 | AFloat64 => [(KFloat, zlen (page_cells p))]
  | AText => [(KStr, zlen (page_cells p))]
  | ADate => [(KDate, zlen (page_cells p))]
  | ADateTime => [(KDateTime, zlen (page_cells p))]
  | AObject => page_dtypes p
  end.

(** 915-924 [getColumnTypes] *)
Fixpoint add_type (l : list (kind * Z)) (k : kind) (n : Z) : list (kind * Z) :=
  match l with
  | [] => [(k, 0 + n)]
  | (k', m) :: l => if decide (k' = k) then (k', m + n) :: l else (k', m) :: add_type l k n
  end.
Definition get_column_types (pages : list native_page) : list (kind * Z) :=
  fold_left (λ acc p, fold_left (λ acc e, add_type acc e.1 e.2) (get_page_types p) acc) pages [].

(** 1311-1318 [validatePageKind] *)
Definition valid_kind (p : native_page) (expected : kind) : bool :=
  forallb (λ e : kind * Z, bool_decide (e.1 = expected) || negb (0 <? e.2)) (get_page_types p).

(** the loops with [PY_Int(v).value] and the like: a value of another kind cannot be converted *)
Fixpoint convert (k : kind) (vs : list cell) : yielded :=
  match vs with
  | [] => ([], None)
  | v :: vs => if decide (kind_of v = k) then let r := convert k vs in (v :: r.1, r.2) else ([], Some OtherError)
  end.
Definition object_values (k : kind) (p : native_page) : yielded :=
  if valid_kind p k then convert k (page_cells p) else ([], Some ValueError).

(** 1320-1336 *)
Definition iterate_int_page (p : native_page) : yielded :=
  match page_array p with
  | AInt8 | AInt16 | AInt32 | AInt64 => (page_cells p, None)
  | AObject => object_values KInt p
  | _ => ([], Some ValueError)
  end.
(** 1337-1350 *)
Definition iterate_float_page (p : native_page) : yielded :=
  match page_array p with
  | AFloat32 | AFloat64 => (page_cells p, None)
  | AObject => object_values KFloat p
  | _ => ([], Some ValueError)
  end.
(** 1352-1361 *)
Definition iterate_boolean_page (p : native_page) : yielded :=
  match page_array p with
  | ABool => (page_cells p, None)
  | AObject => object_values KBool p
  | _ => ([], Some ValueError)
  end.
(** 1364-1373 *)
Definition iterate_string_page (p : native_page) : yielded :=
  match page_array p with
  | AText => (page_cells p, None)
  | AObject => object_values KStr p
  | _ => ([], Some ValueError)
  end.
(** 1375-1387 *)
Definition iterate_object_page (p : native_page) : yielded := (page_cells p, None).

(** 1389-1402: [None] stands for PY_ObjectND; there are iterators for four kinds *)
Definition iterate_page (k : option kind) (p : native_page) : yielded :=
  match k with
  | Some KBool => iterate_boolean_page p
  | Some KInt => iterate_int_page p
  | Some KFloat => iterate_float_page p
  | Some KStr => iterate_string_page p
  | None => iterate_object_page p
  | _ => ([], Some OtherError)
  end.

(** the loop over the pages *)
Fixpoint iterate_pages (f : native_page → yielded) (pages : list native_page) : yielded :=
  match pages with
  | [] => ([], None)
  | p :: pages =>
      match f p with
      | (vs, Some e) => (vs, Some e)
      | (vs, None) => let r := iterate_pages f pages in (vs ++ r.1, r.2)
      end
  end.
Definition iterate_column (k : option kind) : list native_page → yielded := iterate_pages (iterate_page k).

(** 1404-1417: dates and datetimes *)
Definition iterate_dates_page (k : kind) (p : native_page) : yielded :=
  if valid_kind p k then
    match page_array p with
    | ADate | ADateTime => (page_cells p, None)
    | AObject => match k with KDate | KDateTime => convert k (page_cells p) | _ => ([], None) end
    | _ => ([], None)
    end
  else ([], Some ValueError).
Definition iterate_dates (k : kind) : list native_page → yielded := iterate_pages (iterate_dates_page k).

(** 1427-1439 *)
Definition page_item (p : native_page) (index : Z) : res cell :=
  if (0 <=? index) && (index <? zlen (page_cells p)) then
    match page_cells p !! Z.to_nat index with Some v => Ok v | None => Err IndexError end
  else Err IndexError.
(** 1441-1451 *)
Fixpoint column_item (pages : list native_page) (index cnt : Z) : res cell :=
  match pages with
  | [] => Err IndexError
  | p :: pages =>
      if cnt + zlen (page_cells p) <=? index then column_item pages index (cnt + zlen (page_cells p))
      else page_item p (index - cnt)
  end.

(** libnimlite.nim 21, numpy.nim 822-851: an array is copied from the address of its first element, objects go through [np.array] *)
Definition read_page (lib : py_lib) (p : native_page) : res (list cell) :=
  match page_array p with
  | AObject => Ok (np_array lib (page_cells p))
  | _ => match page_cells p with [] => Err IndexError | vs => Ok vs end
  end.
