(** tablite/sort_utils.py 267-303 [HashDict] and tablite/datatypes.py 699-728 [numpy_to_python], [pytype].

    [raw] is what the class inherits from: a dict whose keys are compared with [==], of which the first that came is kept.
    Keys of a HashDict are no tuples. *)
From stdpp Require Import strings.
From Verif.Spec Require Export TypedDict.
From Verif.Model Require Export Sort.
Local Open Scope Z_scope.

(** datatypes.py 699-713; [obj.item()] of a scalar is the value *)
Definition numpy_to_python (obj : pyobj) : pyval := match obj with Scalar v => v | Plain v => v end.

(** The types of values *)
Inductive pytype_name := TNone | TBool | TInt | TFloat | TStr | TBytes | TTime | TDate | TDatetime | TDelta.
Global Instance pytype_name_eq_dec : EqDecision pytype_name.
Proof. solve_decision. Defined.
Definition type_of_value (v : pyval) : pytype_name :=
  match v with
  | VNone => TNone | VBool _ => TBool | VInt _ => TInt | VFloat _ => TFloat | VStr _ => TStr | VBytes _ => TBytes
  | VTime _ => TTime | VDate _ => TDate | VDatetime _ => TDatetime | VDelta _ => TDelta
  end.
(** datatypes.py 715-728 *)
Definition pytype (obj : pyobj) : pytype_name := match obj with Scalar v => type_of_value v | Plain v => type_of_value v end.

(** [__name__] of a type *)
Definition type_text (t : pytype_name) : string :=
  match t with
  | TNone => "NoneType" | TBool => "bool" | TInt => "int" | TFloat => "float" | TStr => "str" | TBytes => "bytes"
  | TTime => "time" | TDate => "date" | TDatetime => "datetime" | TDelta => "timedelta"
  end%string.

(** A key of the dict inherited from: a pair of type and value, or what an inherited method was given *)
Inductive raw_key := Pair (t : pytype_name) (v : pyval) | Single (v : pyval).
(** [==] of keys: pairs are equal if their items are *)
Definition raw_eqb (a b : raw_key) : bool :=
  match a, b with
  | Pair t v, Pair u w => bool_decide (t = u) && bool_decide (eq_class v = eq_class w)
  | Single v, Single w => bool_decide (eq_class v = eq_class w)
  | _, _ => false
  end.

Section HashDict.
  Context {V : Type}.
  Notation raw := (list (raw_key * V)).

  Fixpoint raw_get (d : raw) (k : raw_key) : option V :=
    match d with [] => None | (k', x) :: d => if raw_eqb k k' then Some x else raw_get d k end.
  Fixpoint raw_set (d : raw) (k : raw_key) (x : V) : raw :=
    match d with [] => [(k, x)] | (k', y) :: d => if raw_eqb k k' then (k', x) :: d else (k', y) :: raw_set d k x end.
  Fixpoint raw_del (d : raw) (k : raw_key) : raw :=
    match d with [] => [] | (k', y) :: d => if raw_eqb k k' then d else (k', y) :: raw_del d k end.

  (** 273-275 *)
  Definition get_hash (key : pyobj) : raw_key := let key := numpy_to_python key in Pair (type_of_value key) key.

  (** [(_, k)] for a key: a text of two characters and two bytes are taken apart, an item of bytes is a whole number *)
  Definition second (k : raw_key) : res pyval :=
    match k with
    | Pair _ v => Ok v
    | Single (VStr (String.String _ (String.String c EmptyString))) => Ok (VStr (String.String c EmptyString))
    | Single (VStr _) => Err ValueError
    | Single (VBytes (String.String _ (String.String c EmptyString))) => Ok (VInt (Z.of_nat (Ascii.nat_of_ascii c)))
    | Single (VBytes _) => Err ValueError
    | Single _ => Err TypeError
    end.
  Fixpoint seconds (ks : list raw_key) : res (list pyval) :=
    match ks with [] => Ok [] | k :: ks => res_bind (second k) (λ v, res_map (cons v) (seconds ks)) end.

  (** 277-281 [items], 280-281 [keys], 283-284 [__iter__] *)
  Definition hd_keys (d : raw) : res (list pyval) := seconds d.*1.
  Definition hd_items (d : raw) : res (list (pyval * V)) := res_map (λ ks, zip ks d.*2) (seconds d.*1).

  (** 286-296 *)
  Definition hd_getitem (d : raw) (key : pyobj) : res V := match raw_get d (get_hash key) with Some x => Ok x | None => Err KeyError end.
  Definition hd_setitem (d : raw) (key : pyobj) (x : V) : raw := raw_set d (get_hash key) x.
  Definition hd_contains (d : raw) (key : pyobj) : bool := match raw_get d (get_hash key) with Some _ => true | None => false end.
  Definition hd_delitem (d : raw) (key : pyobj) : res raw :=
    match raw_get d (get_hash key) with Some _ => Ok (raw_del d (get_hash key)) | None => Err KeyError end.

  (** Inherited: [d.get(key, default)] and [d.setdefault(key, x)], [d.update({key: x})] *)
  Definition hd_get (d : raw) (key : pyobj) (dflt : V) : V := default dflt (raw_get d (Single (meant key))).
  Definition hd_update (d : raw) (key : pyobj) (x : V) : raw := raw_set d (Single (meant key)) x.

  (** Statements one after another; an exception is caught *)
  Definition hd_do (d : raw) (op : dict_op V) : raw :=
    match op with
    | OpSet k x => hd_setitem d k x
    | OpDel k => match hd_delitem d k with Ok d => d | Err _ => d end
    end.
  Definition hd_run (ops : list (dict_op V)) : raw := fold_left hd_do ops [].
End HashDict.

(** 189-193: the dictionary that [unix_sort] returns, and [d[v]] *)
Definition rank_dict (L : list pyval) : list (raw_key * Z) :=
  fold_left (λ d p, hd_setitem d (Plain p.2) p.1) (zip (seqZ 0 (zlen L)) L) [].
