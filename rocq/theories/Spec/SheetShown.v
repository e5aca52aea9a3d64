(** C98: the first lines of a sheet as shown before the import.  Nothing of the readers. *)
From Verif.Spec Require Export SheetCells.
Local Open Scope Z_scope.

(** a value shown *)
Inductive shown := SNull | SInt (z : Z) | SFloat (bits : Z) | SStr (s : list Z).
Global Instance shown_eq_dec : EqDecision shown.
Proof. solve_decision. Defined.

(** how a cell is shown; [iso]: the text of a date or time; values of other types may have none *)
Definition shows {O} (iso : O → list Z) (other : option shown) (v : xcell O) (s : shown) : Prop :=
  match v with
  | XNone => s = SNull
  | XBool true => s = SStr [84; 114; 117; 101]
  | XBool false => s = SStr [70; 97; 108; 115; 101]
  | XInt z => s = SInt z
  | XFloat b => s = SFloat b
  | XStr t => s = SStr t
  | XObj o => s = SStr (iso o)
  | XOther => other = Some s
  end.

(** [k] is the number of columns up to the last one with a value in [rows] *)
Definition used_width {O} (rows : list (list (xcell O))) (k : nat) : Prop :=
  (∀ row i v, row ∈ rows → row !! i = Some v → v ≠ XNone → (i < k)%nat) ∧
  (k ≠ 0%nat → ∃ row v, row ∈ rows ∧ row !! pred k = Some v ∧ v ≠ XNone).

(** The name that a shown header stands for; [str] of texts *)
Definition header_name (str : list Z → string) (s : shown) : option string :=
  match s with SNull => Some ""%string | SStr t => Some (str t) | _ => None end.
(** a header that is a text or missing *)
Definition text_header {O} (v : xcell O) : Prop := match v with XNone | XStr _ => True | _ => False end.
