(** tablite/nimlite.py 206-317 [column_select], nimlite/funcs/column_selector/: collectinfo.nim,
    sliceconv.nim, mask.nim, makepage.nim, pagecasters.nim.

    A page is the kind of its array (None: an object array) and its values; a table lists its
    columns, each a list of pages.  The pages of the results are given by their values.  [conv k v]
    is what casters.nim (122-243) does: ValueError means that there is no such value.  Left out:
    files and their names, parallel workers, the progress bar, the checks of the argument. *)
From stdpp Require Import strings pretty.
From Verif.Spec Require Export Base Select.
From Verif.Model Require Export Dict Names.

(** mask.nim 1-4 *)
Inductive mask := INVALID | UNUSED | VALID.
Global Instance mask_eq_dec : EqDecision mask. Proof. solve_decision. Defined.

(** mask.nim 6-36.  [step] is [stepSize] *)
Section mask.
  Context (step : nat).
  (** 31-33: the first unused one of [arr[i..lastIndex]] *)
  Definition first_unused (i : nat) (l : list mask) : option nat :=
    (λ p : nat * mask, (i + p.1)%nat) <$> list_find (λ m, m = UNUSED) l.
  (** 21-36; [fuel] bounds the loop *)
  Fixpoint search_loop (fuel : nat) (arr : list mask) (i : nat) : nat :=
    match fuel with
    | O => 0
    | S fuel =>
        if (i <? length arr)%nat then
          let nextIndex := Nat.min (i + step) (length arr) in
          let lastIndex := (nextIndex - 1)%nat in
          if decide (arr !! lastIndex ≠ Some UNUSED) then search_loop fuel arr nextIndex
          else match first_unused i (take (nextIndex - i) (drop i arr)) with
               | Some j => j
               | None => search_loop fuel arr nextIndex
               end
        else 0
    end%nat.
  Definition unused_mask_search (arr : list mask) : res nat :=
    match list.last arr with
    | None => Err IndexError                                    (* [arr[^1]] *)
    | Some m =>
        if decide (m ≠ UNUSED) then Ok (length arr) else
        if decide (head arr = Some UNUSED) then Ok 0%nat else Ok (search_loop (S (length arr)) arr 0)
    end.
End mask.

Section ColumnSelect.
  Context {A K : Type} `{EqDecision A, EqDecision K} (kind : A → K) (knone kstr : K) (none estr : A).
  Context (conv : K → A → res A).
  Record page := Page { pg_kind : option K; pg_vals : list A }.
  Definition table := list (string * list page).

  (** ** what is wanted: collectinfo.nim 92-120 *)
  (** an entry of [cols]; [rename] is the stripped text, None if there is none or it is empty *)
  Record request := Request { r_column : string; r_rename : option string; r_type : option K; r_allow : bool }.
  Record desired := Desired { d_name : string; d_orig : string; d_type : K; d_allow : bool }.
  (** 105-120; the dict [desiredColumnMap] and [collisions] *)
  Definition add_desired (s : list (string * desired) * list (string * N)) (c : request) : list (string * desired) * list (string * N) :=
    let nameOut := default (r_column c) (r_rename c) in
    let '(nameOut, collisions) :=
      match dget s.2 nameOut with
      | Some n => (numbered nameOut n, dset s.2 nameOut (n + 1)%N)
      | None => (nameOut, dset s.2 nameOut 1%N)
      end in
    (dset s.1 nameOut (Desired nameOut (r_column c) (default knone (r_type c)) (r_allow c)), collisions).
  Definition desired_columns (cols : list request) : list desired := (fold_left add_desired cols ([], [])).1.*2.

  (** ** kinds: numpy.nim 893-924 *)
  Definition page_types (p : page) : list K :=
    match pg_kind p with Some k => [k] | None => remove_dups (map kind (pg_vals p)) end.
  Definition column_types (c : list page) : list K := remove_dups (concat (map page_types c)).
  (** collectinfo.nim 194-219 *)
  Definition needs_to_iterate (d : desired) (c : list page) : bool :=
    let check colDtypes :=
      match colDtypes with
      | [] => false
      | [activeType] => if decide (activeType ≠ d_type d) then true else bool_decide (activeType = kstr) && negb (d_allow d)
      | _ => true
      end in
    let colDtypes := column_types c in
    if decide (knone ∈ colDtypes) then
      if negb (d_allow d) then true
      else if decide (d_type d = kstr) then true
      else check (filter (λ k, k ≠ knone) colDtypes)
    else check colDtypes.
  (** 152-165: length and number of pages *)
  Definition layout (c : list page) : nat * nat := (length (concat (map pg_vals c)), length c).
  Definition page_count (t : table) : res nat :=
    match t with
    | [] => Err IndexError
    | (_, c) :: t => if forallb (λ c', bool_decide (layout c'.2 = layout c)) t then Ok (length c) else Err OtherError
    end.

  (** ** conversion of a page *)
  (** reasons: makepage.nim 88-97 *)
  Context (no_text no_none : desired → A) (no_value : desired → A → A).
  (** makepage.nim 6-26 *)
  Definition can_be_none (p : page) : bool :=
    match pg_kind p with
    | Some k => bool_decide (k = kstr)
    | None => bool_decide (knone ∈ page_types p) || bool_decide (kstr ∈ page_types p)
    end.
  (** pagecasters.nim 81-83, 123-143: pages which are returned as they are *)
  Definition as_is (d : desired) (p : page) : bool :=
    match pg_kind p with
    | Some k => bool_decide (k = d_type d) && (negb (bool_decide (k = kstr)) || d_allow d)
    | None => false
    end.
  (** makepage.nim 137-143 *)
  Definition empty_value (d : desired) : A := if decide (d_type d = kstr) then estr else none.
  (** makepage.nim 158-197: whether [v] is empty, and the reason if it may not be *)
  Definition emptiness (d : desired) (p : page) (v : A) : option A :=
    match pg_kind p with
    | Some k => if decide (k = kstr ∧ v = estr) then Some (no_text d) else None
    | None =>
        if negb (can_be_none p) then None
        else if decide (v = estr) then Some (no_text d)
        else if decide (v = none) then Some (no_none d) else None
    end.
  (** makepage.nim 152-231: one value; the new entries of buffer, mask and reasons.  Entries of the buffer which
      are left at a default are [none] here. *)
  Definition make_cell (d : desired) (p : page) (v : A) (m : mask) (r : A) : res (A * mask * A) :=
    if decide (m = INVALID) then Ok (none, INVALID, r) else
    match emptiness d p v with
    | Some reason => Ok (if d_allow d then (empty_value d, VALID, r) else (none, INVALID, reason))
    | None =>
        match conv (d_type d) v with
        | Ok w => Ok (w, VALID, r)
        | Err ValueError => Ok (none, INVALID, no_value d v)
        | Err e => Err e
        end
    end.
  Fixpoint make_page (d : desired) (p : page) (vs : list A) (ms : list mask) (rs : list A) : res (list A * list mask * list A) :=
    match vs, ms, rs with
    | v :: vs, m :: ms, r :: rs =>
        res_bind (make_cell d p v m r) (λ c,
          res_map (λ rest : list A * list mask * list A, (c.1.1 :: rest.1.1, c.1.2 :: rest.1.2, c.2 :: rest.2)) (make_page d p vs ms rs))
    | _, _, _ => Ok ([], ms, rs)
    end.

  (** ** sliceconv.nim *)
  (** 74-132: one wanted column; [cast]: the values of [castPathsPass] *)
  Definition convert_column (pages : list (string * page)) (correct : string → bool)
      (s : list mask * list A * list (string * list A)) (d : desired) : res (list mask * list A * list (string * list A)) :=
    let '(ms, rs, cast) := s in
    match dget pages (d_orig d) with
    | None => Err KeyError
    | Some p =>
        if (length ms <? length (pg_vals p))%nat then Err OtherError       (* sliceconv.nim 80 *)
        else if correct (d_name d) then
          Ok (map (λ m, if decide (m = INVALID) then INVALID else VALID) (take (length (pg_vals p)) ms) ++ drop (length (pg_vals p)) ms,
              rs, dset cast (d_name d) (pg_vals p))
        else if decide (d_type d = knone) then Err OtherError              (* pagecasters.nim 155 *)
        else if as_is d p then Ok (ms, rs, dset cast (d_name d) (pg_vals p))
        else res_map (λ r : list A * list mask * list A, (r.1.2, r.2, dset cast (d_name d) r.1.1)) (make_page d p (pg_vals p) ms rs)
    end.
  (** sliceconv.nim 18-33: the page of one column, none if there are no indices *)
  Definition finalize (indices : list nat) (data : list A) : res (list A) :=
    if decide (length data = length indices) then Ok data
    else match mapM (λ i, data !! i) indices with Some l => Ok l | None => Err IndexError end.
  Fixpoint finalize_slice (indices : list nat) (cols : list (string * list A)) : res (list (string * list A)) :=
    match cols with
    | [] => Ok []
    | (n, data) :: cols => res_bind (finalize indices data) (λ l, res_map (cons (n, l)) (finalize_slice indices cols))
    end.
  (** Config.PAGE_SIZE; [stepSize] *)
  Context (ps step : nat).
  (** sliceconv.nim 41-169 *)
  Definition slice_convert (pages : list (string * page)) (reject_reason : string) (ds : list desired) (correct : string → bool)
    : res (list (string * list A) * list (string * list A)) :=
    res_bind (fold_left (λ s d, res_bind s (λ s, convert_column pages correct s d)) ds (Ok (replicate ps UNUSED, replicate ps estr, []))) (λ s,
    let '(ms, rs, cast) := s in
    res_bind (unused_mask_search step ms) (λ n,
      let ms := take n ms in
      let validIndices := filter (λ i, ms !! i ≠ Some INVALID) (seq 0 (length ms)) in
      let invalidIndices := filter (λ i, ms !! i = Some INVALID) (seq 0 (length ms)) in
      let reasonLst := omap (λ i, rs !! i) invalidIndices in
      res_bind (if decide (validIndices = []) then Ok [] else finalize_slice validIndices cast) (λ pass,
      res_bind (if decide (invalidIndices = []) then Ok [] else finalize_slice invalidIndices (map (λ c, (c.1, pg_vals c.2)) pages)) (λ fail,
        Ok (pass, fail ++ if decide (reasonLst = []) then [] else [(reject_reason, reasonLst)]))))).

  (** ** nimlite.py 218-317 *)
  (** 307-313: a page is appended to its column *)
  Definition extend_table (t : list (string * list A)) (cols : list (string * list A)) : list (string * list A) :=
    fold_left (λ t c, dset t c.1 (dget_or t c.1 [] ++ c.2)) cols t.
  (** page [i] of every column (206-215) *)
  Definition pages_at (t : table) (i : nat) : res (list (string * page)) :=
    match mapM (λ c : string * list page, p ← c.2 !! i; Some (c.1, p)) t with Some l => Ok l | None => Err IndexError end.
  Fixpoint convert_pages (t : table) (reject_reason : string) (ds : list desired) (correct : string → bool) (is_ : list nat)
      (acc : list (string * list A) * list (string * list A)) : res (list (string * list A) * list (string * list A)) :=
    match is_ with
    | [] => Ok acc
    | i :: is_ =>
        res_bind (pages_at t i) (λ pages,
        res_bind (slice_convert pages reject_reason ds correct) (λ r,
          convert_pages t reject_reason ds correct is_ (extend_table acc.1 r.1, extend_table acc.2 r.2)))
    end.
  Definition column_select (t : table) (cols : list request) : res (list (string * list A) * list (string * list A)) :=
    let ds := desired_columns cols in
    res_bind (page_count t) (λ n,
    match mapM (λ d, c ← dget t (d_orig d); Some (d_name d, negb (needs_to_iterate d c))) ds, unique_name "reject_reason" t.*1 with
    | Some is_correct_type, Some reject_reason =>
        let correct name := dget_or is_correct_type name false in
        let pass := map (λ d, (d_name d, [])) ds in
        let fail := map (λ n, (n, [])) (reject_reason :: t.*1) in
        if forallb snd is_correct_type then
          Ok (map (λ d, (d_name d, concat (map pg_vals (default [] (dget t (d_orig d)))))) ds, fail)
        else convert_pages t reject_reason ds correct (seq 0 n) (pass, fail)
    | None, _ => Err KeyError
    | _, None => Err OtherError                                             (* not reached: C48 *)
    end).
End ColumnSelect.

(** ** for the statements *)
Section terms.
  Context {A K : Type} `{EqDecision A, EqDecision K} (kind : A → K) (knone kstr : K) (none estr : A) (conv : K → A → res A) (ps : nat).
  Notation page := (page (A := A) (K := K)).
  Notation desired := (desired (K := K)).
  Notation table := (table (A := A) (K := K)).
  Notation request := (request (K := K)).

  (** the name asked for *)
  Definition given (c : request) : string := default (r_column c) (r_rename c).
  Definition as_desired (n : string) (c : request) : desired :=
    Desired n (r_column c) (default knone (r_type c)) (r_allow c).
  Definition wish_of (d : desired) : wish := Wish (d_type d) (d_allow d).

  (** the column wanted as [d], and its values *)
  Definition col (t : table) (d : desired) : list page := default [] (dget t (d_orig d)).
  Definition vals (t : table) (d : desired) : list A := concat (map pg_vals (col t d)).
  Definition page_at (c : list page) (i : nat) : page := default (Page None []) (c !! i).

  (** all values of a typed page are of its type *)
  Definition page_ok (p : page) : Prop :=
    match pg_kind p with Some k => k ≠ knone ∧ Forall (λ v, kind v = k) (pg_vals p) | None => True end.

  (** what is assumed of types, values and conversions *)
  Definition conv_ok : Prop :=
    (∀ v, kind v = knone ↔ v = none) ∧ kind estr = kstr ∧ knone ≠ kstr ∧ ∀ v, v ≠ none → conv (kind v) v = Ok v.
  (** a table with pages of the lengths [lens], which fit in a mask *)
  Definition table_ok (t : table) (lens : list nat) : Prop :=
    NoDup t.*1 ∧ t ≠ [] ∧ Forall (λ L, L ≤ ps)%nat lens ∧
    ∀ c, c ∈ t → Forall page_ok c.2 ∧ map (length ∘ pg_vals) c.2 = lens.
  (** the columns wanted are there; they have types, unless nothing is to be done; conversions
      give a value or ValueError *)
  Definition wishes_ok (t : table) (ds : list desired) : Prop :=
    ∀ d, d ∈ ds → d_orig d ∈ t.*1 ∧ (needs_to_iterate kind knone kstr d (col t d) = true → d_type d ≠ knone) ∧
      ∀ v e, v ∈ vals t d → conv (d_type d) v = Err e → e = ValueError.
  (** every page with rows is looked at for some column *)
  Definition all_seen (t : table) (ds : list desired) (lens : list nat) : Prop :=
    ∀ i L, lens !! i = Some L → L = 0%nat ∨ ∃ d, d ∈ ds ∧ (needs_to_iterate kind knone kstr d (col t d) = false ∨ as_is kstr d (page_at (col t d) i) = false).
End terms.
