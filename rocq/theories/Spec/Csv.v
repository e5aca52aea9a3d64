(** Delimiter-separated text as a writer with standard quoting produces it.
    Characters are numbers (bytes); independent of tablite. *)
From Verif.Spec Require Export Base.
Local Open Scope Z_scope.

Definition chr := Z.
Definition NL : chr := 10.
Definition CR : chr := 13.
Definition TAB : chr := 9.
Definition SPACE : chr := 32.
Definition BACKSLASH : chr := 92.

(** A field with every quote character doubled. *)
Definition double_quotes (q : chr) (f : list chr) : list chr :=
  f ≫= λ c, if decide (c = q) then [q; q] else [c].

(** A field as written: quoted or bare. *)
Definition write_field (q : chr) (x : bool * list chr) : list chr :=
  if x.1 then q :: double_quotes q x.2 ++ [q] else x.2.

(** The fields of a row with the delimiter between them. *)
Fixpoint write_row (d q : chr) (row : list (bool * list chr)) : list chr :=
  match row with
  | [] => []
  | [x] => write_field q x
  | x :: row => write_field q x ++ d :: write_row d q row
  end.

(** Every row ends with a newline. *)
Definition write_rows (d q : chr) (rows : list (list (bool * list chr))) : list chr :=
  rows ≫= λ row, write_row d q row ++ [NL].

(** A field may be written bare if it contains neither delimiter nor quote nor
    line end. *)
Definition may_be_bare (d q : chr) (f : list chr) : Prop :=
  d ∉ f ∧ q ∉ f ∧ NL ∉ f ∧ CR ∉ f.
Definition well_quoted (d q : chr) (rows : list (list (bool * list chr))) : Prop :=
  ∀ row, row ∈ rows → row ≠ [] ∧ ∀ x, x ∈ row → x.1 = false → may_be_bare d q x.2.

(** Carriage return + newline becomes newline. *)
Fixpoint crlf_to_lf (f : list chr) : list chr :=
  match f with
  | [] => []
  | c :: rest =>
      match rest with
      | c' :: _ => if decide (c = CR ∧ c' = NL) then crlf_to_lf rest else c :: crlf_to_lf rest
      | [] => [c]
      end
  end.

(** Newline and tab become a backslash and the letter n (110) or t (116). *)
Definition show_breaks (f : list chr) : list chr :=
  f ≫= λ c, if decide (c = NL) then [BACKSLASH; 110] else if decide (c = TAB) then [BACKSLASH; 116] else [c].

(** [a,"b""c"] in a text with delimiter comma (44) and quote character 34. *)
Example write_test : write_rows 44 34 [[(false, [97]); (true, [98; 34; 99])]]
  = [97; 44; 34; 98; 34; 34; 99; 34; 10].
Proof. reflexivity. Qed.

(** What a reader that may strip makes of a field: a bare field loses its leading
    spaces, every field its trailing white space. *)
Definition white (c : chr) : Prop := c = SPACE ∨ c = TAB ∨ c = 11 ∨ c = CR ∨ c = NL ∨ c = 12.
Global Instance white_dec c : Decision (white c).
Proof. unfold white. apply _. Defined.
Fixpoint drop_while {A} (P : A → Prop) `{∀ x, Decision (P x)} (l : list A) : list A :=
  match l with
  | [] => []
  | x :: l' => if decide (P x) then drop_while P l' else l
  end.
Definition stripped (strip quoted : bool) (f : list chr) : list chr :=
  if strip then
    reverse (drop_while white (reverse (if quoted then f else drop_while (λ c, c = SPACE) f)))
  else f.

Example stripped_test : stripped true false [32; 97; 32; 98; 9; 32] = [97; 32; 98].
Proof. reflexivity. Qed.

(** ** Which records of a text are imported *)
Inductive skip_empty := SKIP_NONE | SKIP_ANY | SKIP_ALL.

(** A record is kept if skipping is off, if (ANY) none of its fields is empty, if
    (ALL) some field is not empty. *)
Definition kept (s : skip_empty) (row : list (list chr)) : Prop :=
  match s with
  | SKIP_NONE => True
  | SKIP_ANY => [] ∉ row
  | SKIP_ALL => ∃ f, f ∈ row ∧ f ≠ []
  end.
Global Instance kept_dec s row : Decision (kept s row).
Proof.
  destruct s; cbn; [apply _..|].
  destruct (decide (Exists (λ f, f ≠ []) row)) as [H|H]; [left|right]; rewrite <- list.Exists_exists; done.
Defined.

(** The records after the header line, from [start] on, at most [limit]. *)
Definition chosen_rows (start limit : option Z) (hdr : bool) (header_row : Z)
    (recs : list (list (list chr))) : list (list (list chr)) :=
  let data := drop (Z.to_nat (header_row + (if hdr then 1 else 0))) recs in
  let data := drop (Z.to_nat (default 0 start)) data in
  match limit with Some l => take (Z.to_nat l) data | None => data end.

(** … without the skipped ones *)
Definition wanted_rows (s : skip_empty) (start limit : option Z) (hdr : bool) (header_row : Z)
    (recs : list (list (list chr))) : list (list (list chr)) :=
  filter (kept s) (chosen_rows start limit hdr header_row recs).

Example wanted_test : wanted_rows SKIP_ALL (Some 1) (Some 3) true 0
    [[[97]; [98]]; [[49]; [50]]; [[]; []]; [[51]; []]; [[]; [52]]; [[53]]]
  = [[[51]; []]; [[]; [52]]].
Proof. reflexivity. Qed.
