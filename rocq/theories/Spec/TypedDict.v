(** A dictionary that tells keys of different types apart, stated without the code. *)
From Verif.Spec Require Import Base.
From Verif.Spec Require Export PyValue.

(** A value of Python, or numpy's scalar of it *)
Inductive pyobj := Plain (v : pyval) | Scalar (v : pyval).
Definition meant (o : pyobj) : pyval := match o with Plain v | Scalar v => v end.

Inductive dict_op (V : Type) := OpSet (k : pyobj) (x : V) | OpDel (k : pyobj).
Global Arguments OpSet {V}. Global Arguments OpDel {V}.

(** What was last stored for [v], a key of the same type; the last operation is the last of the list. *)
Definition last_stored {V} (v : pyval) (ops : list (dict_op V)) : option V :=
  fold_left (λ x op, match op with
                     | OpSet k y => if decide (meant k = v) then Some y else x
                     | OpDel k => if decide (meant k = v) then None else x
                     end) ops None.

(** The keys in the order in which they came *)
Definition keys_stored {V} (ops : list (dict_op V)) : list pyval :=
  fold_left (λ ks op, match op with
                      | OpSet k _ => if decide (meant k ∈ ks) then ks else ks ++ [meant k]
                      | OpDel k => filter (λ v, v ≠ meant k) ks
                      end) ops [].

(** The name of the type of a value *)
Definition type_name (v : pyval) : string :=
  match v with
  | VNone => "NoneType" | VBool _ => "bool" | VInt _ => "int" | VFloat _ => "float" | VStr _ => "str" | VBytes _ => "bytes"
  | VTime _ => "time" | VDate _ => "date" | VDatetime _ => "datetime" | VDelta _ => "timedelta"
  end%string.

(** The second of the two items that a key holds, if it is no pair of type and value *)
Definition second_item (v : pyval) : res pyval :=
  match v with
  | VStr s => if bool_decide (String.length s = 2%nat) then Ok (VStr (substring 1 1 s)) else Err ValueError
  | VBytes s => match list_ascii_of_string s with [_; c] => Ok (VInt (Z.of_nat (Ascii.nat_of_ascii c))) | _ => Err ValueError end
  | _ => Err TypeError
  end.
