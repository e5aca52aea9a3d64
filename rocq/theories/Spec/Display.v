(** What a printed table may be expected to look like. *)
From Coq Require Import String.
From Verif.Model Require Export Display.
From Verif.Spec Require Export Rows Counts TypedText.
Local Open Scope string_scope.
Local Open Scope list_scope.
Local Open Scope Z_scope.

(** ** Grids *)

(** [s] in a field of [w] characters *)
Definition padded (w : nat) (s x : list Z) : Prop :=
  length x = w ∧ ∃ a b, x = replicate a 32 ++ s ++ replicate b 32.

(** fields with a mark before, between and behind *)
Definition framed (mark : Z) (xs : list (list Z)) : list Z := concat (map (cons mark) xs) ++ [mark].
Definition line_of (ws : list nat) (texts : list (list Z)) (l : list Z) : Prop :=
  ∃ xs, Forall3 padded ws texts xs ∧ l = framed 124 xs.
Definition rule (c : Z) (ws : list nat) : list Z := framed 43 (map (λ w, replicate w c) ws).

Definition grid (ws : list nat) (header : list (list Z)) (labels body : list (list (list Z))) (lines : list (list Z)) : Prop :=
  ∃ h ls bs, line_of ws header h ∧ Forall2 (line_of ws) labels ls ∧ Forall2 (line_of ws) body bs ∧
    lines = [rule 61 ws; h] ++ ls ++ [rule 45 ws] ++ bs ++ [rule 61 ws].

(** ** Texts *)

(** the digits of [n] in groups of three *)
Definition with_commas (n : Z) (s : list Z) : Prop :=
  ∃ g rest ds, (1 <= length g <= 3)%nat ∧ groups 44 rest ds ∧ s = g ++ rest ∧ decimal n (g ++ ds).

(** no blanks around *)
Definition unpadded (s : list Z) : Prop := head s ≠ Some 32 ∧ list.last s ≠ Some 32.

(** the rows shown; [None]: dots stand for the others *)
Definition shown_rows (n : nat) (slice_ : option pyslice) : list (option nat) :=
  match slice_ with
  | Some s => map (λ i, Some (Z.to_nat i)) (slice_positions (seq 0 n) s)
  | None => if decide (n <= 20)%nat then map Some (seq 0 n)
            else map Some (seq 0 7) ++ [None] ++ map Some (seq (n - 7) 7)
  end.
Definition dots : list Z := [46; 46; 46].

Definition row_label (r : option nat) (s : list Z) : Prop :=
  match r with Some i => with_commas (Z.of_nat i) s | None => s = dots end.

(** the text of a column in a row; [blanks] stands for values that are None or missing *)
Definition cell_text (str : cell → list Z) (blanks : cell) (values : list cell) (r : option nat) : list Z :=
  match r with
  | None => dots
  | Some i => match values !! i with
              | None | Some CNone => str blanks
              | Some v => str v
              end
  end.

(** the label of a column for the types of its values *)
Definition type_label {T} (type_name : T → list Z) (types : list T) (l : list Z) : Prop :=
  types = [] ∧ l = bytes_of "empty" ∨
  (∃ x, types ≠ [] ∧ (∀ y, y ∈ types → y = x) ∧ l = type_name x) ∨
  (∃ x y, x ∈ types ∧ y ∈ types ∧ x ≠ y ∧ l = bytes_of "mixed").

(** ** HTML *)
Definition html_line (texts : list (list Z)) : list Z :=
  bytes_of "<tr>" ++ concat (map (λ x, bytes_of "<th>" ++ x ++ bytes_of "</th>") texts) ++ bytes_of "</tr>".
Definition html (lines : list (list (list Z))) : list Z :=
  bytes_of "<div><table border=1>" ++ concat (map html_line lines) ++ bytes_of "</table></div>".
(** the text of a column in a row; [blanks] stands for missing values *)
Definition value_text (str : cell → list Z) (blanks : cell) (values : list cell) (r : option nat) : list Z :=
  match r with None => dots | Some i => str (default blanks (values !! i)) end.
