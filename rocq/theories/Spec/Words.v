(** Texts cut into words.  Characters are their code points.  This file knows nothing of tablite. *)
From Verif.Spec Require Export PyList.
Local Open Scope Z_scope.

Notation word := (list Z) (only parsing).

(** The chunks with the separators between them: [glued \[s1; s2\] \[a; b; c\] = a s1 b s2 c]. *)
Inductive glued : list word → list word → word → Prop :=
| glued_last a : glued [] [a] a
| glued_next s seps a chunks rest :
    glued seps chunks rest → glued (s :: seps) (a :: chunks) (a ++ s ++ rest).

(** [a] is what stands before the leftmost occurrence of [s] in [text], [rest] what stands behind it. *)
Definition first_cut (s text a rest : word) : Prop :=
  text = a ++ s ++ rest ∧ ∀ a' rest', text = a' ++ s ++ rest' → zlen a ≤ zlen a'.

(** Every chunk ends at the leftmost occurrence of its separator. *)
Inductive leftmost : list word → list word → word → Prop :=
| leftmost_last a : leftmost [] [a] a
| leftmost_next s seps a chunks rest text :
    first_cut s text a rest → leftmost seps chunks rest → leftmost (s :: seps) (a :: chunks) text.

(** The words with the delimiter between them ([d.join(ws)]). *)
Fixpoint joined (d : word) (ws : list word) : word :=
  match ws with
  | [] => []
  | [w] => w
  | w :: ws => w ++ d ++ joined d ws
  end.

Definition occurs (d w : word) : Prop := ∃ a b, w = a ++ d ++ b.

(** A word without the spaces at its ends. *)
Definition unspaced (w t : word) : Prop :=
  (∃ a b, w = repeat 32 a ++ t ++ repeat 32 b) ∧ head t ≠ Some 32 ∧ head (rev t) ≠ Some 32.

(** Words of a line with quotes.  Within quotes a character is written as itself, a quote is doubled, and any
    character may stand behind a backslash. *)
Inductive quoted_char (q : Z) : Z → word → Prop :=
| plain_char c : c ≠ q → c ≠ 92 → quoted_char q c [c]
| double_quote : quoted_char q q [q; q]
| escaped_char c : quoted_char q c [92; c].

Inductive written (d q : Z) : word → word → Prop :=
| bare w : Forall (λ c, c ≠ d ∧ c ≠ 92 ∧ c ≠ 10 ∧ c ≠ 13) w → head w ≠ Some q → written d q w w
| in_quotes w ts : Forall2 (quoted_char q) w ts → written d q w (q :: concat ts ++ [q]).

(** A line: its words, written and with the delimiter between them. *)
Definition line_of (d q : Z) (ws : list word) (line : word) : Prop :=
  ∃ ts, Forall2 (written d q) ws ts ∧ ws ≠ [] ∧ line = joined [d] ts ∧ line ≠ [].

(** Delimiter and quote differ, and neither is a backslash or a line end. *)
Definition good_marks (d q : Z) : Prop :=
  d ≠ q ∧ d ≠ 92 ∧ d ≠ 10 ∧ d ≠ 13 ∧ q ≠ 92 ∧ q ≠ 10 ∧ q ≠ 13.
