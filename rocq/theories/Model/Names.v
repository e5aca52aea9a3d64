(** tablite/utils.py [unique_name] (lines 41-52), nimlite/utils.nim
    [uniqueName] (lines 18-27), and the header loops built on them. *)
From stdpp Require Export strings pretty.
From Verif.Spec Require Export Base.

(** f"{wanted_name}_{i}" (utils.py 50) / [desiredName & "_" & $idx]
    (utils.nim 24). *)
Definition numbered (wanted : string) (i : N) : string :=
  (wanted +:+ "_" +:+ pretty i)%string.

(** utils.py 49-51, utils.nim 23-25: the [while name in set_of_names] loop from
    counter [i] on; [fuel] bounds the number of iterations, [None] = the loop
    has not ended by then. *)
Fixpoint name_loop (fuel : nat) (wanted : string) (names : list string)
    (name : string) (i : N) : option string :=
  if decide (name ∈ names) then
    match fuel with
    | O => None
    | S fuel => name_loop fuel wanted names (numbered wanted i) (i + 1)
    end
  else Some name.

(** The whole function.  [length names] iterations are allowed; C48 proves that
    this is always enough, i.e. that the loop ends. *)
Definition unique_name (wanted : string) (names : list string) : option string :=
  name_loop (length names) wanted names wanted 1.

(** import_utils.py 231-235 ([columns.append(unique_name(f, columns))]),
    text_reader.nim 166-174 ([fields.add(uniqueName(n, fields))]),
    import_utils.py 241-243 and 403-416 (the same with a dict / set of the
    names used so far). *)
Definition dedup_headers (headers : list string) : option (list string) :=
  fold_left (λ acc h, cs ← acc; n ← unique_name h cs; Some (cs ++ [n])) headers (Some []).
