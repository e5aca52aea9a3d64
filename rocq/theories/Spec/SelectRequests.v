(** What an entry of the argument of [column_select] asks for, stated without the
    code. *)
From Coq Require Import String.
From Verif.Spec Require Import Base TaskSettings.
Local Open Scope string_scope.
Local Open Scope list_scope.

(** The types of values that the native code knows *)
Inductive knd8 := K_NONETYPE | K_BOOLEAN | K_INT | K_FLOAT | K_STRING | K_DATE | K_TIME | K_DATETIME.

(** The names of types that may be asked for *)
Definition type_names : list (string * knd8) :=
  [("int", K_INT); ("float", K_FLOAT); ("bool", K_BOOLEAN); ("str", K_STRING);
   ("date", K_DATE); ("time", K_TIME); ("datetime", K_DATETIME)].

(** The values in an entry; [JOther]: any other object *)
Inductive jvalue := JNone | JBool (b : bool) | JText (s : string) | JOther (n : nat).

(** Whether a value is a text with anything in it *)
Definition some_text (v : option jvalue) : option string :=
  match v with Some (JText EmptyString) => None | Some (JText s) => Some s | _ => None end.

(** The new name that is asked for; [strip] removes white space at both ends *)
Definition asks_name (strip : string → string) (v : option jvalue) (new : option string) : Prop :=
  match some_text v with
  | None => new = None
  | Some s => strip s ≠ "" ∧ new = Some (strip s)
  end.

(** The type that is asked for; letters may be large *)
Definition asks_type (v : option jvalue) (k : option knd8) : Prop :=
  match v with
  | None | Some JNone => k = None
  | Some (JText s) => ∃ name k', (name, k') ∈ type_names ∧ spelled name s ∧ k = Some k'
  | Some _ => False
  end.
