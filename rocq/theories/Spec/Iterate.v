(** Pages of a column as nimlite reads them: the type of the array, the values and, for objects, the counts of their kinds. *)
From Verif.Spec Require Export Base ObjectPage Counts Npy.
Local Open Scope Z_scope.

Inductive page_kind := ABool | AInt8 | AInt16 | AInt32 | AInt64 | AFloat32 | AFloat64 | AText | ADate | ADateTime | AObject.

(** the kind of the values of an array *)
Definition holds (a : page_kind) : option kind :=
  match a with
  | ABool => Some KBool
  | AInt8 | AInt16 | AInt32 | AInt64 => Some KInt
  | AFloat32 | AFloat64 => Some KFloat
  | AText => Some KStr
  | ADate => Some KDate
  | ADateTime => Some KDateTime
  | AObject => None
  end.

Record native_page := NativePage { page_array : page_kind; page_cells : list cell; page_dtypes : list (kind * Z) }.

(** the values have the kind of the array; the counts of objects are right *)
Definition native_ok (p : native_page) : Prop :=
  match holds (page_array p) with
  | Some k => Forall (λ v, kind_of v = k) (page_cells p)
  | None => counts_exactly (page_dtypes p) (map kind_of (page_cells p))
  end.

Definition column_cells (pages : list native_page) : list cell := concat (page_cells <$> pages).

(** Reading a column as values of the kind [k]: the values of the pages before the first page that has another value, and an
    exception if there is one. *)
Definition read_as (k : kind) (pages : list native_page) (r : list cell * option exn) : Prop :=
  ∃ before after, pages = before ++ after ∧ Forall (λ v, kind_of v = k) (column_cells before) ∧ r.1 = column_cells before ∧
    ((after = [] ∧ r.2 = None) ∨
     (∃ p rest, after = p :: rest ∧ (∃ v, v ∈ page_cells p ∧ kind_of v ≠ k) ∧ r.2 = Some ValueError)).

(** the number given for a kind *)
Fixpoint count_of (l : list (kind * Z)) (k : kind) : Z :=
  match l with
  | [] => 0
  | (k', n) :: l => if decide (k' = k) then n else count_of l k
  end.
