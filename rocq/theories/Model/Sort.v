(** tablite/sort_utils.py and sortation.py.

    Text collation (pyuca) and Python's [str] are parameters.  The value codes of
    sort_utils.py are computed with exact rationals instead of floats. *)
From Verif.Spec Require Export SortOrder PySort.
From Verif.Model Require Export Joins.
Local Open Scope Z_scope.

(** the result of the value functions: a number or an infinity *)
Inductive vcode := NegInf | Fin (q : Qc) | PosInf.

Definition vcode_cmp (a b : vcode) : comparison :=
  match a, b with
  | NegInf, NegInf | PosInf, PosInf => Eq
  | NegInf, _ | _, PosInf => Lt
  | _, NegInf | PosInf, _ => Gt
  | Fin x, Fin y => Qccompare x y
  end.

Section Sort.
  Context (coll : string → list Z) (pystr : pyval → string).

  (** [timedelta.days] and [timedelta.seconds] of a timedelta of [us] microseconds *)
  Definition td_days (us : Z) : Z := us / day_us.
  Definition td_seconds (us : Z) : Z := (us mod day_us) / 1000000.
  (** [dt.days + dt.seconds / (24 * 60 * 60)] *)
  Definition days_code (us : Z) : vcode := Fin (Qc_of_Z (td_days us) + ratio (td_seconds us) 86400)%Qc.

  (** ** sort_utils.py 9-73: excel *)
  (** [_excel_typecodes]: lines 10-20; None for a type which is not in the table *)
  Definition excel_tc (v : pyval) : option nat :=
    match v with
    | VTime _ | VInt _ | VFloat _ | VDate _ | VDatetime _ | VDelta _ => Some 0
    | VStr _ => Some 1
    | VBool _ => Some 2
    | VNone => Some 3
    | VBytes _ => None
    end%nat.
  (** [_excel_value_function]: lines 26-71; [date - date(1900,1,1)] has no seconds *)
  Definition excel_vc (v : pyval) : vcode :=
    match v with
    | VTime us => Fin (ratio us day_us)
    | VDate d => days_code ((d + 25567) * day_us)
    | VDatetime us => days_code (us + 25567 * day_us)
    | VDelta us => days_code us
    | VBool b => Fin (Qc_of_Z (Z.b2z b))
    | VFloat q => Fin q
    | VInt z => Fin (Qc_of_Z z)
    | _ => PosInf
    end.

  (** ** sort_utils.py 73-133: unix *)
  Definition unix_tc (v : pyval) : option nat :=
    match v with
    | VNone => Some 0
    | VBool _ => Some 1
    | VInt _ | VFloat _ => Some 2
    | VTime _ => Some 3
    | VDate _ => Some 4
    | VDatetime _ => Some 5
    | VDelta _ => Some 6
    | VStr _ => Some 7
    | VBytes _ => None
    end%nat.
  Definition unix_vc (v : pyval) : vcode :=
    match v with
    | VTime us => Fin (ratio us day_us)
    | VDate d => days_code (d * day_us)
    | VDatetime us | VDelta us => days_code us
    | VBool b => Fin (Qc_of_Z (Z.b2z b))
    | VFloat q => Fin q
    | VInt z => Fin (Qc_of_Z z)
    | _ => NegInf
    end.

  (** Python's comparison of two values: equal, less, greater or a TypeError *)
  Definition val_cmp (a b : pyval) : option comparison :=
    match a, b with
    | VNone, VNone => Some Eq
    | VTime x, VTime y | VDate x, VDate y | VDatetime x, VDatetime y | VDelta x, VDelta y => Some (x ?= y)
    | _, _ => match number a, number b with
              | Some x, Some y => Some (Qccompare x y)
              | _, _ => None
              end
    end.

  (** a tuple [(TC, VC, value)] *)
  Definition tup : Type := nat * vcode * pyval.
  Definition tup_tied (a b : tup) : bool :=
    match thenc (Nat.compare a.1.1 b.1.1) (vcode_cmp a.1.2 b.1.2) with Eq => true | _ => false end.
  Definition tup_cmp (a b : tup) : comparison :=
    thenc (thenc (Nat.compare a.1.1 b.1.1) (vcode_cmp a.1.2 b.1.2)) (default Eq (val_cmp a.2 b.2)).
  Definition leb_of {A} (cmp : A → A → comparison) (a b : A) : bool :=
    match cmp a b with Gt => false | _ => true end.

  (** [l.sort(reverse=reverse)] of a list of tuples.  Elements that tie on the first two
      items are compared by value; sorting has to compare two elements which end up
      next to each other, so an incomparable tied pair raises TypeError. *)
  Definition sort_tuples (reverse : bool) (l : list tup) : res (list tup) :=
    if existsb (λ a, existsb (λ b, tup_tied a b && negb (bool_decide (is_Some (val_cmp a.2 b.2)))) l) l
    then Err TypeError
    else Ok (py_sort (leb_of (dir_cmp reverse tup_cmp)) l).

  (** [l.sort(key=uca_collator.sort_key, reverse=reverse)] *)
  Definition sort_text {A} (text : A → string) (reverse : bool) (l : list A) : list A :=
    py_sort (leb_of (dir_cmp reverse (λ a b, list_cmp (coll (text a)) (coll (text b))))) l.

  Definition the_text (v : pyval) : string := match v with VStr s => s | _ => "" end.

  (** [{key(value): ix for ix, value in enumerate(L)}] *)
  Definition enum_dict {A K} `{EqDecision K} (key : A → K) (L : list A) : list (K * Z) :=
    fold_left (λ d p, dset d (key p.2) p.1) (zip (seqZ 0 (zlen L)) L) [].

  (** ** sort_utils.py 135-143 [text_sort].  Keys of a plain dict are classes under [==]. *)
  Definition text_sort (values : list pyval) (reverse : bool) : list (pyval * Z) :=
    let text := fold_left (λ d v, dset d (pystr v) v) values [] in
    let L := sort_text id reverse text.*1 in
    enum_dict (λ s, eq_class (default VNone (dget text s))) L.

  (** ** sort_utils.py 146-193 [unix_sort].  HashDict's keys are pairs of type and value. *)
  Definition unix_sort (values : list pyval) (reverse : bool) : res (list (pyval * Z)) :=
    let text := List.filter is_text values in
    match mapM (λ v, TC ← unix_tc v; Some (TC, unix_vc v, v)) (List.filter (λ v, negb (is_text v)) values) with
    | None => Err KeyError
    | Some non_text =>
        res_bind (sort_tuples reverse non_text) (λ non_text,
        let text := sort_text the_text reverse text in
        Ok (enum_dict id (non_text.*2 ++ text)))
    end.

  (** ** sort_utils.py 196-248 [excel_sort] *)
  Definition excel_sort (values : list pyval) (reverse : bool) : res (list (pyval * Z)) :=
    match mapM (λ v, TC ← excel_tc v; Some (TC, excel_vc v, v)) values with
    | None => Err KeyError
    | Some tups =>
        let numeric := List.filter (λ p, Nat.eqb p.1.1 0) tups in
        let text := (List.filter (λ p, Nat.eqb p.1.1 1) tups).*2 in
        let booles := List.filter (λ p, Nat.leb 2 p.1.1) tups in
        let text := sort_text the_text reverse text in
        res_bind (sort_tuples reverse numeric) (λ numeric,
        res_bind (sort_tuples reverse booles) (λ booles,
        let L := if reverse then booles.*2 ++ text ++ numeric.*2
                 else numeric.*2 ++ text ++ booles.*2 in
        Ok (enum_dict eq_class L)))
    end.

  (** ** sort_utils.py 254-264 [rank], and [ranks[v]] of the dictionary it returns *)
  Definition rank (values : list pyval) (reverse : bool) (m : mode) : res (list (pyval * Z)) :=
    match m with
    | Alphanumeric => Ok (text_sort values reverse)
    | Unix => unix_sort values reverse
    | Excel => excel_sort values reverse
    end.
  Definition rank_get (m : mode) (ranks : list (pyval * Z)) (v : pyval) : option Z :=
    dget ranks (match m with Unix => v | _ => eq_class v end).

  (** ** sortation.py 17-69 [sort_index] *)
  Context {T : Type} `{EqDecision T} (ty : pyval → T) (ps : Z).
  Notation tbl := (table string pyval T).
  (** [multitype_set]: the distinct values in the order of a Python set, datatypes.py 867-870 *)
  Context (mtset : list pyval → list pyval).

  (** lines 51-53: [rank[ix] += (ranks[v2],)] *)
  Fixpoint add_level (m : mode) (ranks : list (pyval * Z)) (rank : list (list Z)) (col : list pyval)
      : res (list (list Z)) :=
    match col, rank with
    | [], _ => Ok rank
    | _, [] => Err KeyError
    | v :: col, r :: rank =>
        match rank_get m ranks v with
        | None => Err KeyError
        | Some x => res_map (cons (r ++ [x])) (add_level m ranks rank col)
        end
    end.
  (** lines 48-56 *)
  Fixpoint sort_levels (t : tbl) (m : mode) (mapping : list (string * bool)) (rk : list (list Z))
      : res (list (list Z)) :=
    match mapping with
    | [] => Ok rk
    | (key, reverse) :: mapping =>
        match dget t key with
        | None => Err KeyError
        | Some c =>
            let col := col_iter c in
            res_bind (rank (mtset col) reverse m) (λ ranks,
            res_bind (add_level m ranks rk col) (λ rk, sort_levels t m mapping rk))
        end
    end.
  (** lines 63-69: [new_order] holds pairs (rank, row number) *)
  Definition order_leb (a b : list Z * nat) : bool :=
    match thenc (list_cmp a.1 b.1) (Nat.compare a.2 b.2) with Gt => false | _ => true end.
  Definition sort_index (t : tbl) (m : mode) (mapping : list (string * bool)) : res (list nat) :=
    match mapping with
    | [] => Err TypeError
    | _ =>
        if negb (forallb (λ kv, bool_decide (kv.1 ∈ t.*1)) mapping) then Err ValueError else
        let n := Z.to_nat (tbl_len t) in
        res_bind (sort_levels t m mapping (replicate n [])) (λ rk,
        Ok ((py_sort order_leb (zip rk (seq 0 n))).*2))
    end.

  (** sortation.py 146-162 [sort] *)
  Definition sort (t : tbl) (m : mode) (mapping : list (string * bool)) : res tbl :=
    res_bind (sort_index t m mapping) (λ index, reindex ty VNone ps t (map Z.of_nat index)).

  (** sortation.py 165-177 [is_sorted] *)
  Definition is_sorted (t : tbl) (m : mode) (mapping : list (string * bool)) : res bool :=
    res_bind (sort_index t m mapping) (λ index, Ok (bool_decide (index = seq 0 (Z.to_nat (tbl_len t))))).
End Sort.
