(** tablite/datatypes.py [DataTypes.round] (lines 326-372) for numbers
    ([epoch = 0]); exact arithmetic on rationals, [//] is floor division. *)
From Coq Require Export QArith Qround Qabs.
From Verif.Spec Require Export Base.
Local Open Scope Q_scope.

Definition dt_round (value multiple : Q) (up : option bool) : Q :=
  if Qeq_bool value 0 then value else                                   (* 358-359 *)
  let low := inject_Z (Qfloor (value / multiple)) * multiple in         (* 361 *)
  let high := low + multiple in                                         (* 362 *)
  match up with
  | Some true => high                                                   (* 363-364 *)
  | Some false => low                                                   (* 365-366 *)
  | None =>                                                             (* 367-371 *)
      if negb (Qle_bool (Qabs (value - low)) (Qabs (high - value))) then high else low
  end.
