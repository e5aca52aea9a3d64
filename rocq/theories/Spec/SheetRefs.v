(** C94: the names of the cells of a sheet.  Nothing of the reader. *)
From Verif.Spec Require Export PyList TypedText.
Local Open Scope Z_scope.

(** The column after a column: A, B, ..., Z, AA, AB, ..., AZ, BA, ...; the letters from the right to the left. *)
Fixpoint next_letters (s : list Z) : list Z :=
  match s with
  | [] => [65]
  | c :: s => if c =? 90 then 65 :: next_letters s else c + 1 :: s
  end.
(** the name of the column number [n], counted from 0 *)
Definition column_name (n : nat) : list Z := rev (Nat.iter n next_letters [65]).

Example column_name_test :
  map column_name [0; 25; 26; 701; 702; Z.to_nat 16383]%nat = [[65]; [90]; [65; 65]; [90; 90]; [65; 65; 65]; [88; 70; 68]].
Proof. by vm_compute. Qed.

(** the reference to the cell in column [c] (from 0) and row [r] (from 1) *)
Definition reference (c : nat) (r : Z) (s : list Z) : Prop := ∃ ds, s = column_name c ++ ds ∧ number r ds.
