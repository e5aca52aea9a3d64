(** numpy's conversions as far as tablite's column code depends on them.

    Concrete cells, the dtype a stored page has and what assigning into an
    array of that dtype stores.  Used for the instances of the [cast] and
    [np_array] parameters of Model/Column.v. *)
From Verif.Model Require Export Column.
From stdpp Require Export strings pretty.
Local Open Scope Z_scope.

(** Python values; a float is given by its value in hundredths. *)
Inductive cell :=
| CNone
| CBool (b : bool)
| CInt (z : Z)
| CFloat (hundredths : Z)
| CStr (s : string).
Inductive ctype := TNone | TBool | TInt | TFloat | TStr.
Global Instance cell_eq_dec : EqDecision cell. Proof. solve_decision. Defined.
Global Instance ctype_eq_dec : EqDecision ctype. Proof. solve_decision. Defined.

Definition cty (c : cell) : ctype :=
  match c with
  | CNone => TNone | CBool _ => TBool | CInt _ => TInt | CFloat _ => TFloat | CStr _ => TStr
  end.

(** Python's [==]: bool, int and float compare by numeric value. *)
Definition hundredths (c : cell) : option Z :=
  match c with
  | CBool b => Some (if b then 100 else 0)
  | CInt z => Some (100 * z)
  | CFloat h => Some h
  | _ => None
  end.
Definition ceqb (x y : cell) : bool :=
  match hundredths x, hundredths y with
  | Some a, Some b => a =? b
  | None, None => bool_decide (x = y)
  | _, _ => false
  end.
(** the class of a cell under [==] *)
Definition ckey (x : cell) : Z + option string :=
  match hundredths x, x with
  | Some a, _ => inl a
  | None, CStr s => inr (Some s)
  | None, _ => inr None
  end.

(** the dtype numpy gives [np.asarray(values)] of one Python type, and object
    otherwise (datatypes.py 756-832: [pytype_from_iterable], [list_to_np_array]) *)
Inductive dtype := DObj | DBool | DInt | DFloat | DStr (width : nat).
Global Instance dtype_eq_dec : EqDecision dtype. Proof. solve_decision. Defined.
Definition dtype_of (xs : list cell) : dtype :=
  match xs with
  | [] => DObj
  | x :: _ =>
      if forallb (λ y, bool_decide (cty y = cty x)) xs then
        match cty x with
        | TBool => DBool
        | TInt => DInt
        | TFloat => DFloat
        | TStr => DStr (fold_right (λ y m, match y with CStr s => Nat.max (String.length s) m | _ => m end) 1%nat xs)
        | TNone => DObj
        end
      else DObj
  end.
(** [np_type_unify] (datatypes.py 835-851): one common dtype, else object *)
Definition unify (ds : list dtype) : dtype :=
  match ds with
  | [] => DObj
  | d :: ds => if forallb (λ e, bool_decide (e = d)) ds then d else DObj
  end.

(** [arr[i] = v] for an array of dtype [d].  Strings assigned to numeric arrays
    are taken not to be numerals (numpy would parse a numeral). *)
Definition np_store (d : dtype) (v : cell) : res cell :=
  match d, v with
  | DObj, _ => Ok v
  | DStr w, CStr s => Ok (CStr (String.substring 0 w s))
  | DStr w, CInt z => Ok (CStr (String.substring 0 w (pretty z)))
  | DStr w, CNone => Ok (CStr (String.substring 0 w "None"))
  | DStr w, CBool b => Ok (CStr (String.substring 0 w (if b then "True" else "False")))
  | DInt, CInt z => Ok v
  | DInt, CBool b => Ok (CInt (if b then 1 else 0))
  | DInt, CFloat h => Ok (CInt (Z.quot h 100))
  | DInt, CNone => Err TypeError
  | DInt, CStr _ => Err ValueError
  | DFloat, CFloat _ => Ok v
  | DFloat, CInt z => Ok (CFloat (100 * z))
  | DFloat, CBool b => Ok (CFloat (if b then 100 else 0))
  | DFloat, CNone => Err TypeError
  | DFloat, CStr _ => Err ValueError
  | DBool, CBool _ => Ok v
  | DBool, CInt z => Ok (CBool (negb (z =? 0)))
  | DBool, CFloat h => Ok (CBool (negb (h =? 0)))
  | DBool, CNone => Ok (CBool false)
  | DBool, CStr s => Ok (CBool (negb (bool_decide (s = ""))))
  | DStr _, CFloat _ => Err OtherError (* text of floats not modelled *)
  end.
(** The page's array after loading has the dtype of its values (a page that
    went through [col[i] = v] has dtype object, base.py 460; that is the case
    in which nothing is converted). *)
Definition np_cast (pages : list (page cell ctype)) (v : cell) : res cell :=
  np_store (unify (map (λ p, dtype_of (pdata p)) pages)) v.

(** [np.array(keys)] of a Python list: numpy turns everything into text as soon
    as one element is text (base.py 901) *)
Definition to_text (v : cell) : cell :=
  match v with
  | CInt z => CStr (pretty z)
  | CBool b => CStr (if b then "True" else "False")
  | _ => v
  end.
Definition np_array_of (xs : list cell) : list cell :=
  if existsb (λ x, bool_decide (cty x = TStr)) xs && forallb (λ x, negb (bool_decide (cty x = TNone))) xs
  then map to_text xs else xs.
