(** Writing to several files in turn.  This file knows nothing of tablite. *)
From Verif.Spec Require Export PyList.

(** Bytes are written to the file with the given number; or the C library empties the buffer of an open file, as it may
    at any time. *)
Inductive file_op (B : Type) := Put (i : nat) (bytes : list B) | Spill (i : nat).
Arguments Put {B}. Arguments Spill {B}.

(** Everything that is written to file [i], in order. *)
Fixpoint written {B} (i : nat) (ops : list (file_op B)) : list B :=
  match ops with
  | [] => []
  | Put j bytes :: ops => (if decide (j = i) then bytes else []) ++ written i ops
  | Spill _ :: ops => written i ops
  end.
