(** nimlite/funcs/imputation.nim 15-275: nearest neighbour imputation ([nearest_neighbour] of
    tablite/imputation.py passes its arguments on).

    A table is the list of its columns, a column the list of its pages.  None is an exception
    (Nim's IndexDefect and KeyError).  Left out: the progress bar, the rounding of floats, NaN, and
    values which are [==] although their kinds differ (1, 1.0 and True): [==] of values is equality.
    Column objects of the result are new (195-198) or those of [T] (201); neither is changed later
    through [T], so tables are values here. *)
From Coq Require Import QArith Qabs.
From Verif.Spec Require Export Base PySort.
From Verif.Model Require Export Dict.

Section Nearest.
  (** [leb]: the order of [cmpNonText] (37-43) on values which are not text, then text (45) *)
  Context {N A : Type} `{EqDecision N, EqDecision A} (leb : A → A → bool) (missing : list A).
  Definition pages := list (list A).
  Definition table := list (N * pages).

  (** 21-26 *)
  Definition uniq (vs : list A) : list A := fold_left (λ u v, if decide (v ∈ u) then u else u ++ [v]) vs [].
  (** 47-68, the keys in order: nonText before text *)
  Definition unix_sort (vs : list A) : list A := py_sort leb vs.
  (** the number which [unixSort] has for v *)
  Fixpoint position (v : A) (l : list A) : nat :=
    match l with [] => 0 | x :: l => if decide (x = v) then 0 else S (position v l) end.
  (** 132-145: [d[v]] for the column of values [vs]; None is Inf *)
  Definition norm (vs : list A) (v : A) : option Q :=
    let sortedKeys := unix_sort (uniq vs) in
    let n := length (filter (λ v, v ∉ missing) sortedKeys) in
    if decide (v ∈ missing) then None
    else Some (inject_Z (Z.of_nat (position v sortedKeys)) / inject_Z (Z.of_nat n))%Q.

  (** the page which has row [idx], and the position in it, by the lengths of the pages *)
  Fixpoint locate (lens : list nat) (idx : nat) : option (nat * nat) :=
    match lens with
    | [] => None
    | l :: lens => if (idx <? l)%nat then Some (0%nat, idx) else prod_map S id <$> locate lens (idx - l)
    end.
  (** numpy.nim 1441-1451 *)
  Definition item (c : pages) (idx : nat) : option A :=
    locate (map length c) idx ≫= λ pq, c !! pq.1 ≫= λ page, page !! pq.2.
  (** the row at position [q] of page [p] *)
  Definition row_at (cs : list pages) (p q : nat) : option (list A) :=
    mapM (λ c : pages, c !! p ≫= λ page, page !! q) cs.

  (** numpy.nim 1484-1502 [index] *)
  Definition index_rows (cs : list pages) : option (list (list A)) :=
    first ← head cs;
    (λ l : list (list (list A)), concat l) <$> mapM (λ p, mapM (row_at cs p) (seq 0 (length (default [] (first !! p))))) (seq 0 (length first)).
  Definition index (rows : list (list A)) : list (list A * list nat) :=
    (fold_left (λ (d : list (list A * list nat) * nat) row, (dset d.1 row (dget_or d.1 row [] ++ [d.2]), S d.2)) rows ([], 0%nat)).1.
  (** imputation.nim 151-155 *)
  Definition missing_index (rows : list (list A)) : list (list A * list nat) :=
    filter (λ kv, Exists (λ m, m ∈ kv.1) missing) (index rows).
  (** 168-184: different keys have different numbers, [newOrder] has them all *)
  Fixpoint seq_geb (a b : list nat) : bool :=
    match a, b with
    | x :: a, y :: b => if (x =? y)%nat then seq_geb a b else (y <? x)%nat
    | _, _ => true
    end.
  Definition order (mvi : list (list A * list nat)) : list (list nat) :=
    let itemOrder := unix_sort (uniq (concat (map fst mvi))) in
    map snd (py_sort (λ a b : list A * list nat,
      seq_geb (map (λ v, position v itemOrder) a.1) (map (λ v, position v itemOrder) b.1)) mvi).

  (** ** errors; None is Inf *)
  (** 212-218: [row] are the numbers [normIndex[n][v]], [norms] the [normalisedValues[n]] *)
  Definition add_err (q : Q) (e e2 : option Q) : option Q :=
    match e, e2 with Some a, Some b => Some (a + Qabs (q - b))%Q | _, _ => None end.
  Definition err_map (len : nat) (row : list (option Q)) (norms : list (list (option Q))) : list (option Q) :=
    fold_left (λ errMap (s : option Q * list (option Q)),
      match s.1 with None => errMap | Some q => zip_with (add_err q) errMap s.2 end) (zip row norms) (replicate len (Some 0%Q)).
  Definition err_ltb (a b : option Q) : bool :=
    match a, b with Some x, Some y => negb (Qle_bool y x) | Some _, None => true | None, _ => false end.
  Definition err_eqb (a b : option Q) : bool :=
    match a, b with Some x, Some y => Qeq_bool x y | None, None => true | _, _ => false end.
  (** 219-220, 251-252: [min] and [find] *)
  Definition err_min (l : list (option Q)) : option (option Q) :=
    match l with [] => None | e :: l => Some (fold_left (λ m x, if err_ltb x m then x else m) l e) end.
  Definition argmin (l : list (option Q)) : option nat :=
    m ← err_min l; i ← list_find (λ e, err_eqb e m = true) l; Some i.1.

  (** ** one target column: [c] are its pages in [T], [sp] its [sparseMap] *)
  (** 239-243, 256-260 *)
  Definition sparse_get (c : pages) (sp : list (nat * A)) (ix : nat) : option (A * list (nat * A)) :=
    match dget sp ix with
    | Some sv => Some (sv, sp)
    | None => sv ← item c ix; Some (sv, dset sp ix sv)
    end.
  (** 250-268; the value found, if any *)
  Fixpoint search (n : nat) (c : pages) (rowIdx : nat) (errs : list (option Q)) (sp : list (nat * A))
    : option (option A * list (nat * A)) :=
    match n with
    | O => Some (None, sp)
    | S n =>
        tmpIx ← argmin errs;
        r ← sparse_get c sp tmpIx;
        if decide (rowIdx = tmpIx ∨ r.1 ∈ missing) then search n c rowIdx (<[tmpIx := None]> errs) r.2
        else Some (Some r.1, dset r.2 rowIdx r.1)
    end.
  (** 234-268: the new value of the cell *)
  Definition fill_cell (c : pages) (rowIdx ix : nat) (errs : list (option Q)) (current : A) (sp : list (nat * A))
    : option (A * list (nat * A)) :=
    if decide (current ∉ missing) then Some (current, sp) else
    r ← sparse_get c sp ix;
    if decide (r.1 ∉ missing) then Some (r.1, dset r.2 rowIdx r.1)
    else s ← search (length errs) c rowIdx errs r.2; Some (default current s.1, s.2).

  (** ** the loop *)
  (** [cur]: [targetsPages], the page of every target; [out]: [targetsPYColumns] *)
  Record state := MkState { cur : list (list A); last : option nat; sparse : list (list (nat * A)); out : list pages }.
  (** 108-114 *)
  Fixpoint save_pages (data : list (list A)) (columns : list pages) (p : nat) : list pages :=
    match data, columns with
    | vals :: data, col :: columns => <[p := vals]> col :: save_pages data columns p
    | _, _ => columns
    end.
  Definition save (s : state) : list pages :=
    match last s with None => out s | Some p => save_pages (cur s) (out s) p end.
  (** 221-231 *)
  Definition load (tgts : list pages) (p : nat) (s : state) : option state :=
    if decide (last s = Some p) then Some s
    else cur ← mapM (λ c : pages, c !! p) tgts; Some (MkState cur (Some p) (sparse s) (save s)).
  (** 233-268 *)
  Fixpoint fill_row (tgts : list pages) (rowIdx pageIdx ix : nat) (errs : list (option Q)) (cur : list (list A)) (sps : list (list (nat * A)))
    : option (list (list A) * list (list (nat * A))) :=
    match tgts, cur, sps with
    | c :: tgts, page :: cur, sp :: sps =>
        v ← page !! pageIdx;
        r ← fill_cell c rowIdx ix errs v sp;
        rest ← fill_row tgts rowIdx pageIdx ix errs cur sps;
        Some (<[pageIdx := r.1]> page :: rest.1, r.2 :: rest.2)
    | _, _, _ => Some ([], [])
    end.
  (** 211-231, for row [rowIdx]; the pages are those of the first source (82-99) *)
  Definition visit (len : nat) (srcs tgts : list pages) (norms : list (list (option Q))) (s : state) (rowIdx : nat) : option state :=
    first ← head srcs;
    pq ← locate (map length first) rowIdx;
    row ← row_at srcs pq.1 pq.2;
    let errMap := err_map len (zip_with (λ c v, norm (concat c) v) srcs row) norms in
    ix ← argmin errMap;
    s ← load tgts pq.1 s;
    r ← fill_row tgts rowIdx pq.2 ix errMap (cur s) (sparse s);
    Some (MkState r.1 (last s) r.2 (out s)).
  Fixpoint visits (len : nat) (srcs tgts : list pages) (norms : list (list (option Q))) (s : state) (rows : list nat) : option state :=
    match rows with
    | [] => Some s
    | r :: rows => s ← visit len srcs tgts norms s r; visits len srcs tgts norms s rows
    end.

  (** 193-201 with the pages saved in the end: [cols] are the new columns in the order of [T] *)
  Fixpoint new_table (T : table) (targets : list N) (cols : list pages) : table :=
    match T with
    | [] => []
    | (n, c) :: T =>
        if decide (n ∈ targets)
        then match cols with new :: cols => (n, new) :: new_table T targets cols | [] => (n, c) :: new_table T targets [] end
        else (n, c) :: new_table T targets cols
    end.
  Definition table_len (T : table) : nat := fold_right (λ c m, Nat.max (length (concat c.2)) m) 0%nat T.
  Definition nearest (T : table) (sources targets : list N) : option table :=
    srcs ← mapM (dget T) sources;
    tgts ← mapM (dget T) targets;
    rows ← index_rows tgts;
    let norms := map (λ c, map (norm (concat c)) (concat c)) srcs in
    let columns := map snd (filter (λ c : N * pages, c.1 ∈ targets) T) in
    let s := MkState [] None (map (λ _, []) targets) columns in
    s ← visits (table_len T) srcs tgts norms s (concat (order (missing_index rows)));
    Some (new_table T targets (save s)).
End Nearest.
