(** tablite/utils.py 55-80 [expression_interpreter] and tablite/redux.py 12-32
    [_filter_using_expression], 382-401 [filter] with a text.

    Python's compiler: [parses e] says whether [e] can follow [return]; [value e env] is
    [bool] of its value where names have the values of [env] first and those of the built-in
    functions next.  Of the text between the brackets of [def f( ):] only names separated by
    commas are read, anything else counts as a syntax error (defaults, stars and annotations
    are not modelled); bytes from 128 on count as letters. *)
From Coq Require Import Ascii String.
From stdpp Require Import strings.
From Verif.Spec Require Export Expressions.
From Verif.Model Require Export Redux.
Local Open Scope string_scope.
Local Open Scope list_scope.

(** Python's [n in e] for texts *)
Fixpoint occurs (n e : string) : bool :=
  String.prefix n e || match e with EmptyString => false | String _ e => occurs n e end.

(** utils.py 70: [", ".join(i for i in columns if i in expression)] *)
Definition req_columns (columns : list string) (e : string) : list string := List.filter (λ i, occurs i e) columns.
Fixpoint join (sep : string) (l : list string) : string :=
  match l with [] => "" | [x] => x | x :: l => x +:+ sep +:+ join sep l end.

(** ** Python's parameter lists *)
Definition keywords : list string :=
  ["False"; "None"; "True"; "and"; "as"; "assert"; "async"; "await"; "break"; "class"; "continue"; "def"; "del";
   "elif"; "else"; "except"; "finally"; "for"; "from"; "global"; "if"; "import"; "in"; "is"; "lambda"; "nonlocal";
   "not"; "or"; "pass"; "raise"; "return"; "try"; "while"; "with"; "yield"; "__debug__"].
Definition letter (c : ascii) : bool :=
  let n := N_of_ascii c in
  ((65 <=? n) && (n <=? 90) || (97 <=? n) && (n <=? 122) || (n =? 95) || (128 <=? n))%N%bool.
Definition digit (c : ascii) : bool := let n := N_of_ascii c in ((48 <=? n) && (n <=? 57))%N%bool.
Definition white (c : ascii) : bool := let n := N_of_ascii c in ((n =? 32) || (9 <=? n) && (n <=? 13))%N%bool.
Definition no_white (s : string) : Prop := ∀ a c b, s = a +:+ String c b → white c = false.
Fixpoint name_tail (s : string) : bool :=
  match s with EmptyString => true | String c s => (letter c || digit c) && name_tail s end.
Definition identifier (s : string) : bool :=
  match s with EmptyString => false | String c t => letter c && name_tail t && negb (bool_decide (s ∈ keywords)) end.

Fixpoint split_commas (s : string) : list string :=
  match s with
  | EmptyString => [""]
  | String c s =>
      if decide (c = ","%char) then "" :: split_commas s
      else match split_commas s with h :: t => String c h :: t | [] => [String c ""] end
  end.
Fixpoint lstrip (s : string) : string :=
  match s with EmptyString => "" | String c s' => if white c then lstrip s' else s end.
Fixpoint rstrip (s : string) : string :=
  match s with
  | EmptyString => ""
  | String c s => match rstrip s with EmptyString => if white c then "" else String c "" | r => String c r end
  end.

(** A comma may follow the last name *)
Fixpoint drop_last_empty (l : list string) : list string :=
  match l with [] => [] | [x] => if decide (x = "") then [] else [x] | x :: l => x :: drop_last_empty l end.
(** [None]: SyntaxError *)
Definition py_params (s : string) : option (list string) :=
  let ps := drop_last_empty (map (λ p, rstrip (lstrip p)) (split_commas s)) in
  if forallb identifier ps && bool_decide (NoDup ps) then Some ps else None.

Section Expressions.
  Context {A T : Type} `{EqDecision T} (ty : A → T) (none : A) (ps : Z).
  Context (parses : string → bool) (value : string → (string → option A) → res bool).
  Notation tbl := (table string A T).

  (** The values of the parameters in a call *)
  Definition bind (params : list string) (args : list A) (x : string) : option A := dget (zip params args) x.

  (** utils.py 63-80: the function; SyntaxError is [OtherError] *)
  Definition expression_interpreter (e : string) (columns : list string) : res (list A → res bool) :=
    match py_params (join ", " (req_columns columns e)) with
    | None => Err OtherError
    | Some params =>
        if parses e
        then Ok (λ args, if decide (length args = length params) then value e (bind params args) else Err TypeError)
        else Err OtherError
    end.

  Fixpoint call_rows (f : list A → res bool) (rows : list (list A)) : res (list bool) :=
    match rows with
    | [] => Ok []
    | r :: rows => res_bind (f r) (λ b, res_map (cons b) (call_rows f rows))
    end.

  (** redux.py 12-32 *)
  Definition filter_using_expression (t : tbl) (e : string) : res (list bool) :=
    match expression_interpreter e t.*1 with
    | Err _ => Err ValueError
    | Ok f =>
        res_bind (tbl_getitem ty ps t (map KName (req_columns t.*1 e))) (λ sel,
        match sel with
        | SelTable u => res_bind (tbl_rows none u) (call_rows f)
        | _ => Err AttributeError
        end)
    end.

  (** redux.py 382-392 *)
  Definition filter_text (t : tbl) (e : string) : res (tbl * tbl) :=
    if (tbl_len t =? 0)%Z then Ok (t, t)
    else res_bind (filter_using_expression t e) (compress_both ty ps t).
End Expressions.
