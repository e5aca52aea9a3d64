(** tablite/diff.py 8-88 [diff].

    [matching a b]: [difflib.SequenceMatcher(None, a, b).get_matching_blocks()]; [text]: a label
    as a value; [np_array]: [np.array] of a list of values.  Line 80
    ([len(...) > Config.PAGE_SIZE == 0]) is never true for a page size above 0. *)
From Verif.Model Require Export Pivots.
From Verif.Spec Require Export SeqMatch.
Local Open Scope Z_scope.

(** Python's [SequenceMatcher.get_opcodes] *)
Inductive opcode := OInsert | ODelete | OEqual | OReplace.
Fixpoint opcodes (i j : nat) (blocks : list (nat * nat * nat)) : list (opcode * nat * nat * nat * nat) :=
  match blocks with
  | [] => []
  | (ai, bj, size) :: blocks =>
      (if (i <? ai)%nat && (j <? bj)%nat then [(OReplace, i, ai, j, bj)]
       else if (i <? ai)%nat then [(ODelete, i, ai, j, bj)]
       else if (j <? bj)%nat then [(OInsert, i, ai, j, bj)] else []) ++
      (if (size =? 0)%nat then [] else [(OEqual, ai, (ai + size)%nat, bj, (bj + size)%nat)]) ++
      opcodes (ai + size) (bj + size) blocks
  end.

Section Diff.
  Context {A T : Type} `{EqDecision T} (ty : A → T) (none : A) (ps : Z).
  Context (text : string → A) (np_array : list A → list A).
  Context (matching : list (list A) → list (list A) → list (nat * nat * nat)).
  Notation tbl := (table string A T).

  (** [list(t)]: there is no [__iter__], so Python asks for [t[0]], [t[1]], ... up to the first
      IndexError.  [fuel] bounds the loop. *)
  Fixpoint list_of_table (fuel : nat) (i : Z) (t : tbl) : res (list (list A)) :=
    match fuel with
    | O => Err OtherError
    | S fuel =>
        match tbl_getitem ty ps t [KInt i] with
        | Ok (SelRow r) => res_map (cons r) (list_of_table fuel (i + 1) t)
        | Ok _ => Err OtherError (* not for an int *)
        | Err IndexError => Ok []
        | Err e => Err e
        end
    end.
  (** 32-41 *)
  Definition diff_rows (t : tbl) (columns : list string) : res (list (list A)) :=
    res_bind (tbl_getitem ty ps t (map KName columns)) (λ s,
      match s with
      | SelTable _ => tbl_rows none t
      | _ => list_of_table (S (Z.to_nat (tbl_len t))) 0 t
      end).

  (** [l[a:b]] *)
  Definition part {X} (l : list X) (a b : nat) : list X := take (b - a) (drop a l).

  (** one entry of the dict of lists: the rows and their labels *)
  Definition add_labelled (columns : list string) (first second : string) (l1 l2 : string)
      (news : list (string * list A)) (rs : list (list A)) : list (string * list A) :=
    let news := fold_left (λ d p, add_to d p.1 p.2) (zip columns (zip_all rs)) news in
    let news := add_to news first (replicate (length rs) (text l1)) in
    add_to news second (replicate (length rs) (text l2)).
  (** 52-76 *)
  Definition diff_step (columns : list string) (first second : string) (t1 t2 : list (list A))
      (news : list (string * list A)) (o : opcode * nat * nat * nat * nat) : list (string * list A) :=
    let '(opc, t1a, t1b, t2a, t2b) := o in
    match opc with
    | OInsert => add_labelled columns first second "-" "+" news (part t2 t2a t2b)
    | ODelete => add_labelled columns first second "+" "-" news (part t1 t1a t1b)
    | OEqual => add_labelled columns first second "=" "=" news (part t2 t2a t2b)
    | OReplace => add_labelled columns first second "r" "r" news (part t2 t2a t2b)
    end.

  Definition diff (t other : tbl) (columns : option (list string)) : res tbl :=
    (* 21-30 *)
    let ok := match columns with
              | None => true
              | Some l => forallb (λ n, bool_decide (n ∈ t.*1) && bool_decide (n ∈ other.*1)) l
              end in
    let columns := match columns with
                   | None => filter (λ n, n ∈ other.*1) t.*1
                   | Some l => l
                   end in
    if negb ok then Err ValueError else
    res_bind (diff_rows t columns) (λ t1,
    res_bind (diff_rows other columns) (λ t2,
    match unique_name "1st" columns, unique_name "2nd" columns with
    | Some first, Some second =>
        let new := fold_left (λ new n, dset new n []) (columns ++ [first; second]) [] in
        let news := map (λ c, (c.1, [])) new in
        let news := fold_left (diff_step columns first second t1 t2) (opcodes 0 0 (matching t1 t2)) news in
        flush ty ps new (map (λ c, (c.1, np_array c.2)) news)
    | _, _ => Err OtherError (* not reached: C48 *)
    end)).
End Diff.
