(** Joins whose key columns are merged.  This file knows nothing of tablite. *)
From stdpp Require Import strings.
From Verif.Spec Require Export Join.
Local Open Scope Z_scope.

Section keys_merged.
  Context {A : Type} (none : A).
  Implicit Types v w : view (N := string) (A := A).

  (** The key of a row: the value under [l] of the left row or the value under [r] of the right row, whichever there is. *)
  Definition merged_key (prefer_right : bool) v w (l r : string) (p : option Z * option Z) : A :=
    match p.1, p.2 with
    | Some i, None => ofield none v l (Some i)
    | None, j => ofield none w r j
    | Some i, Some j => if prefer_right then ofield none w r (Some j) else ofield none v l (Some i)
    end.

  (** The right key that belongs to a left key. *)
  Fixpoint partner (lkeys rkeys : list string) (n : string) : option string :=
    match lkeys, rkeys with
    | l :: lkeys, r :: rkeys => if decide (l = n) then Some r else partner lkeys rkeys n
    | _, _ => None
    end.

  (** One row: the columns [lcols] of the left row with the keys merged, the columns [rcols] of the right row but for the keys. *)
  Definition merged_row prefer_right v w (lkeys rkeys lcols rcols : list string) (p : option Z * option Z) : list A :=
    map (λ n, match partner lkeys rkeys n with
              | Some r => merged_key prefer_right v w n r p
              | None => ofield none v n p.1
              end) lcols ++
    map (λ n, ofield none w n p.2) (filter (λ n, n ∉ rkeys) rcols).

  (** [r] joins the rows [pairs] with merged keys.  The other right columns have the names that they have without merging. *)
  Definition keys_merged prefer_right v w (lkeys rkeys lcols rcols : list string) pairs (r : view (N := string) (A := A)) : Prop :=
    ∃ given, fresh_names lcols rcols given ∧ NoDup (lcols ++ given) ∧
      names r = lcols ++ (filter (λ x, x.1 ∉ rkeys) (zip rcols given)).*2 ∧
      rows none r = map (merged_row prefer_right v w lkeys rkeys lcols rcols) pairs.
End keys_merged.
