(** tablite/utils.py [date_range] (lines 401-409); datetimes and timedeltas are
    integers (microseconds). *)
From Verif.Spec Require Export PyList.
Local Open Scope Z_scope.

Definition date_range (start stop step : Z) : res (list Z) :=
  if step =? 0 then Err ZeroDivisionError else
  let n := (stop - start) / step in
  Ok (map (λ i, start + step * i) (py_range 0 n 1)).
