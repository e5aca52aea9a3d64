(** nimlite/funcs/groupby.nim; the loop [index] of nimlite/numpy.nim 1484-1502;
    core.py 530-608 [Table.groupby] and tablite/nimlite.py 331-332 only pass on their arguments.

    Cells are native objects ([kind_of] is defined; reading bytes or timedeltas fails).  A
    hash table (std/tables) finds a key if the hash codes are the same and the keys are [==];
    the hash codes (numpy.nim 1455-1465) are built from the kind and the value, and codes of
    different kinds are taken to be different, so that 1 and 1.0 are two keys.  Arithmetic is
    exact; [sqrt] is [pow(_, 1/2)].  A Defect and an access to nil are [OtherError]. *)
From stdpp Require Import strings.
From Verif.Spec Require Import PySort.
From Verif.Model Require Export NimCmp Table.
Local Open Scope Z_scope.

(** groupby.nim 6-8, 10-26 *)
Inductive accumulator :=
  Max | Min | Sum | First | Last | Product | Count | CountUnique | Average | StandardDeviation | Median | Mode.

Definition to_lower (s : string) : string :=
  string_of_list_ascii (map (λ c, let n := Ascii.N_of_ascii c in
    if (65 <=? n)%N && (n <=? 90)%N then Ascii.ascii_of_N (n + 32) else c) (list_ascii_of_string s)).

Definition str2accumulator (str : string) : res accumulator :=
  let s := to_lower str in
  if decide (s = "max") then Ok Max
  else if decide (s = "min") then Ok Min
  else if decide (s = "sum") then Ok Sum
  else if decide (s = "first") then Ok First
  else if decide (s = "last") then Ok Last
  else if decide (s = "product") then Ok Product
  else if decide (s = "count") then Ok Count
  else if decide (s = "countunique" ∨ s = "count_unique") then Ok CountUnique
  else if decide (s = "avg" ∨ s = "average") then Ok Average
  else if decide (s = "stdev" ∨ s = "standarddeviation") then Ok StandardDeviation
  else if decide (s = "median") then Ok Median
  else if decide (s = "mode") then Ok Mode
  else Err ValueError.

(** the name of the enum value, used in line 679 *)
Definition acc_name (a : accumulator) : string :=
  match a with
  | Max => "Max" | Min => "Min" | Sum => "Sum" | First => "First" | Last => "Last"
  | Product => "Product" | Count => "Count" | CountUnique => "CountUnique" | Average => "Average"
  | StandardDeviation => "StandardDeviation" | Median => "Median" | Mode => "Mode"
  end.

(** ** the accumulator objects *)
Inductive gfun :=
| GMax (val : option pyval)
| GMin (val : option pyval)
| GSum (val : Qc)
| GProduct (val : Qc)
| GFirst (isSet : bool) (val : option pyval)
| GLast (val : option pyval)
| GCount (val : Z)
| GCountUnique (items : list pyval) (val : Z)
| GAverage (sum : Qc) (count : Z) (val : Qc)
| GStdDev (count : Z) (mean c : Qc)
| GMedian (hist : list (pyval * Z))
| GMode (hist : list (pyval * Z)).

(** 448-463 [getGroupByFunction] *)
Definition new_fun (acc : accumulator) : gfun :=
  match acc with
  | Max => GMax None
  | Min => GMin None
  | Sum => GSum 0%Qc
  | Product => GProduct 1%Qc
  | First => GFirst false None
  | Last => GLast (Some VNone)
  | Count => GCount 0
  | CountUnique => GCountUnique [] 0
  | Average => GAverage 0%Qc 0 0%Qc
  | StandardDeviation => GStdDev 0 0%Qc 0%Qc
  | Median => GMedian []
  | Mode => GMode []
  end.

(** 77-84, 96-103: [run] *)
Definition limit_run (m : fmethod) (v vv : pyval) : res pyval :=
  if decide (kind_of v = kind_of vv) then Ok (if nim_cmp (λ _, "") m vv v then vv else v)
  else Err OtherError.

(** 116-127, 140-151: ints and floats count as themselves, None and bools as 0.0 *)
Definition sum_term (value : pyval) : res Qc :=
  match value with
  | VInt z => Ok (Qc_of_Z z)
  | VFloat q => Ok q
  | VNone | VBool _ => Ok 0%Qc
  | VStr _ | VDate _ | VTime _ | VDatetime _ => Err ValueError
  | VBytes _ | VDelta _ => Err OtherError
  end.
(** 228-235, 264-272: everything but an int is taken for a PY_Float *)
Definition float_term (value : pyval) : res Qc :=
  match value with
  | VInt z => Ok (Qc_of_Z z)
  | VFloat q => Ok q
  | VStr _ | VDate _ | VTime _ | VDatetime _ => Err ValueError
  | _ => Err OtherError
  end.

(** 334-339 *)
Definition hist_add (hist : list (pyval * Z)) (v : pyval) : list (pyval * Z) :=
  dset hist v (match dget hist v with Some n => n + 1 | None => 1 end).

(** the [update] methods *)
Definition update (f : gfun) (value : pyval) : res gfun :=
  match f with
  | GMax None => Ok (GMax (Some value))
  | GMax (Some v) => res_map (λ v, GMax (Some v)) (limit_run FM_GT v value)
  | GMin None => Ok (GMin (Some value))
  | GMin (Some v) => res_map (λ v, GMin (Some v)) (limit_run FM_LT v value)
  | GSum v => res_map (λ vv, GSum (v + vv)%Qc) (sum_term value)
  | GProduct v => res_map (λ vv, GProduct (v * vv)%Qc) (sum_term value)
  | GFirst isSet v => Ok (if isSet then f else GFirst true (Some value))
  | GLast _ => Ok (GLast (Some value))
  | GCount v => Ok (GCount (v + 1))
  | GCountUnique items _ =>
      let items := if existsb (λ i, nim_cmp (λ _, "") FM_EQ i value) items then items else items ++ [value] in
      Ok (GCountUnique items (zlen items))
  | GAverage sum count _ =>
      res_map (λ v, GAverage (sum + v)%Qc (count + 1) ((sum + v) / Qc_of_Z (count + 1))%Qc) (float_term value)
  | GStdDev count mean c =>
      res_map (λ v, let dt := (v - mean)%Qc in
                    let mean' := (mean + dt / Qc_of_Z (count + 1))%Qc in
                    GStdDev (count + 1) mean' (c + dt * (v - mean'))%Qc) (float_term value)
  | GMedian hist => Ok (GMedian (hist_add hist value))
  | GMode hist => Ok (GMode (hist_add hist value))
  end.

(** ** sorted histograms *)
(** 280-288 *)
Definition parity (v : pyval) : Z :=
  match v with
  | VNone => 0 | VBool _ => 1 | VInt _ | VFloat _ => 2 | VTime _ => 3 | VDate _ => 4 | VDatetime _ => 5
  | _ => 6
  end.
(** imputation.nim 29-36 [toFloat]; only compared for equal [parity], None is only
    compared with itself: 0 instead of -Inf *)
Definition to_float (v : pyval) : Qc :=
  match v with
  | VBool b => Qc_of_Z (Z.b2z b)
  | VInt z => Qc_of_Z z
  | VFloat q => q
  | VDate d => Qc_of_Z (day_us * d)
  | VTime us | VDatetime us => Qc_of_Z us
  | _ => 0%Qc
  end.

Definition then_cmp (c d : comparison) : comparison := match c with Eq => d | _ => c end.
Definition cmp_value (x y : pyval) : comparison :=
  match x, y with
  | VStr a, VStr b => String.compare a b
  | _, _ => then_cmp (parity x ?= parity y) (to_float x ?= to_float y)%Qc
  end.
(** 299-312 *)
Definition cmp_hist (x y : pyval * Z) : comparison := then_cmp (cmp_value x.1 y.1) (x.2 ?= y.2).
(** 402-415 *)
Definition cmp_freq (x y : pyval * Z) : comparison := then_cmp (x.2 ?= y.2) (cmp_value x.1 y.1).

Definition asc {X} (cmp : X → X → comparison) (x y : X) : bool := match cmp x y with Gt => false | _ => true end.
Definition desc {X} (cmp : X → X → comparison) (x y : X) : bool := match cmp x y with Lt => false | _ => true end.

Definition text_of (hist : list (pyval * Z)) := filter (λ e, is_text e.1 = true) hist.
Definition non_text_of (hist : list (pyval * Z)) := filter (λ e, is_text e.1 = false) hist.
(** 314-332 [sortedHistogram], 417-435 [sortedHistogramReversed]: std/algorithm's [sort] is
    stable *)
Definition sorted_histogram (hist : list (pyval * Z)) : list (pyval * Z) :=
  py_sort (asc cmp_hist) (non_text_of hist) ++ py_sort (asc cmp_hist) (text_of hist).
Definition sorted_histogram_reversed (hist : list (pyval * Z)) : list (pyval * Z) :=
  py_sort (desc cmp_freq) (non_text_of hist) ++ py_sort (desc cmp_freq) (text_of hist).

(** 351-355 [castToFloat] after the test of line 377 *)
Definition cast_to_float (v : pyval) : res Qc :=
  match v with VInt z => Ok (Qc_of_Z z) | VFloat q => Ok q | _ => Err ValueError end.

(** 362-379: [total > midpoint = sum / 2].  [B]: the previous key (nil at first) *)
Fixpoint median_even (sum total : Z) (B : option pyval) (h : list (pyval * Z)) : res pyval :=
  match h with
  | [] => Err OtherError
  | (k, v) :: h =>
      let total := total + v in
      if sum <? 2 * total then
        match B with
        | None => Err OtherError
        | Some A => res_bind (cast_to_float A) (λ a, res_map (λ b, VFloat ((a + b) / Qc_of_Z 2)%Qc) (cast_to_float k))
        end
      else median_even sum total (Some k) h
  end.
(** 380-390 *)
Fixpoint median_odd (sum total : Z) (h : list (pyval * Z)) : res pyval :=
  match h with
  | [] => Err OtherError
  | (k, v) :: h => let total := total + v in if sum <? 2 * total then Ok k else median_odd sum total h
  end.
Definition median_value (hist : list (pyval * Z)) : res pyval :=
  let sum := fold_right Z.add 0 (map snd hist) in
  match hist with
  | [(k, _)] => Ok k
  | _ => if Nat.even (length hist) then median_even sum 0 None (sorted_histogram hist)
         else median_odd sum 0 (sorted_histogram hist)
  end.

Section Groupby.
  Context (sqrt : Qc → Qc).

  (** the [value] methods; [f.value.get()] of line 675 *)
  Definition value_of (f : gfun) : res pyval :=
    match f with
    | GMax v | GMin v | GFirst _ v | GLast v => match v with Some v => Ok v | None => Err OtherError end
    | GSum v | GProduct v | GAverage _ _ v => Ok (VFloat v)
    | GCount v | GCountUnique _ v => Ok (VInt v)
    | GStdDev count _ c =>
        if count <=? 1 then Ok (VFloat 0%Qc) else Ok (VFloat (sqrt (c / Qc_of_Z (count - 1))%Qc))
    | GMedian hist => median_value hist
    | GMode hist => match sorted_histogram_reversed hist with [] => Err IndexError | (v, _) :: _ => Ok v end
    end.

  Context {T : Type} `{EqDecision T} (ty : pyval → T) (ps : Z).
  Notation tbl := (table string pyval T).

  Definition native (v : pyval) : bool := match kind_of v with Some _ => true | None => false end.

  (** ** 465-529 [getPages] *)
  Fixpoint get_pages_loop (s : list pyval) (values : list pyval) : column pyval T :=
    match values with
    | [] => match s with [] => [] | _ => [new_page ty s] end
    | v :: values =>
        let s := s ++ [v] in
        if zlen s =? ps then new_page ty s :: get_pages_loop [] values else get_pages_loop s values
    end.
  Definition get_pages (values : list pyval) : column pyval T := get_pages_loop [] values.

  (** ** rows *)
  (** [pageZipper] 531-557 over pages, [iteratePages] 559-586 over the values of pages: both stop
      when one of the iterators has no next element, as [iterateRows] of filter.nim does *)
  Definition zip_lists {X} (its : list (list X)) : list (list X) := iterate_rows (length (default [] (head its))) its.

  (** the pages are read when [iteratePages] begins *)
  Definition iterate_pages (pages : list (page pyval T)) : res (list (list pyval)) :=
    if forallb (λ p, forallb native (pdata p)) pages then Ok (zip_lists (map pdata pages)) else Err OtherError.

  Definition agg_funs : Type := list (string * gfun).
  (** 659-660 *)
  Fixpoint update_all (d : string → option pyval) (fs : agg_funs) : res agg_funs :=
    match fs with
    | [] => Ok []
    | (cn, f) :: fs =>
        match d cn with
        | None => Err KeyError
        | Some v => res_bind (update f v) (λ f, res_map (cons (cn, f)) (update_all d fs))
        end
    end.
  (** 645-660; [d] has the values of the row under the names [columnNames] *)
  Definition group_row (keys : list string) (functions : list (string * accumulator)) (columnNames : list string)
      (agg : list (list pyval * agg_funs)) (row : list pyval) : res (list (list pyval * agg_funs)) :=
    let d := find_col columnNames row in
    match mapM d keys with
    | None => Err KeyError
    | Some key =>
        let fs := match dget agg key with
                  | Some fs => fs
                  | None => map (λ f, (f.1, new_fun f.2)) functions
                  end in
        res_map (dset agg key) (update_all d fs)
    end.
  Fixpoint group_rows keys functions columnNames agg (rows : list (list pyval)) :=
    match rows with
    | [] => Ok agg
    | row :: rows => res_bind (group_row keys functions columnNames agg row)
                       (λ agg, group_rows keys functions columnNames agg rows)
    end.
  (** 643-661 *)
  Fixpoint group_pages keys functions columnNames agg (zipped : list (list (page pyval T))) :=
    match zipped with
    | [] => Ok agg
    | pages :: zipped =>
        res_bind (iterate_pages pages) (λ rows,
        res_bind (group_rows keys functions columnNames agg rows) (λ agg,
        group_pages keys functions columnNames agg zipped))
    end.

  (** 663-675: the values of a group's row *)
  Fixpoint values_of (fs : agg_funs) : res (list pyval) :=
    match fs with
    | [] => Ok []
    | (_, f) :: fs => res_bind (value_of f) (λ v, res_map (cons v) (values_of fs))
    end.
  Fixpoint result_rows (agg : list (list pyval * agg_funs)) : res (list (list pyval)) :=
    match agg with
    | [] => Ok []
    | (k, fs) :: agg => res_bind (values_of fs) (λ vs, res_map (cons (k ++ vs)) (result_rows agg))
    end.
  (** the [j]-th value of every row *)
  Definition col_at (rows : list (list pyval)) (j : nat) : list pyval := omap (λ r, r !! j) rows.
  Definition make_table (names : list string) (rows : list (list pyval)) : tbl :=
    fold_left (λ t p, dset t p.2 (get_pages (col_at rows p.1))) (zip (seq 0 (length names)) names) [].

  (** numpy.nim 1484-1502: the rows of the first column's pages *)
  Definition index_page (cols : list (column pyval T)) (i : nat) : res (list (list pyval)) :=
    match mapM (λ c, c !! i) cols with
    | None => Err IndexError
    | Some pages =>
        if negb (forallb (λ p, forallb native (pdata p)) pages) then Err OtherError
        else
          match mapM (λ r, mapM (λ p, pdata p !! r) pages)
                  (seq 0 (length (default [] (pdata <$> head pages)))) with
          | None => Err IndexError
          | Some rows => Ok rows
          end
    end.
  Fixpoint index_rows (cols : list (column pyval T)) (ixs : list nat) : res (list (list pyval)) :=
    match ixs with
    | [] => Ok []
    | i :: ixs => res_bind (index_page cols i) (λ rows, res_map (app rows) (index_rows cols ixs))
    end.
  (** the keys of the OrderedTable *)
  Definition index_table (rows : list (list pyval)) : list (list pyval) :=
    fold_left (λ d row, if decide (row ∈ d) then d else d ++ [row]) rows [].

  (** [T[cn]] *)
  Fixpoint get_cols (t : tbl) (names : list string) : res (list (column pyval T)) :=
    match names with
    | [] => Ok []
    | n :: names => match dget t n with
                    | None => Err KeyError
                    | Some c => res_map (cons c) (get_cols t names)
                    end
    end.

  Definition column_names (keys : list string) (functions : list (string * accumulator)) : list string :=
    fold_left (λ ns f, if decide (f.1 ∈ ns) then ns else ns ++ [f.1]) functions keys.
  Definition new_names (keys : list string) (functions : list (string * accumulator)) : list string :=
    keys ++ map (λ f, (acc_name f.2 ++ "(" ++ f.1 ++ ")")%string) functions.

  (** 588-690 *)
  Definition nim_groupby (t : tbl) (keys : list string) (functions : list (string * accumulator)) : res tbl :=
    if negb (bool_decide (NoDup keys)) then Err ValueError
    else
      match keys, functions with
      | [], [] => Err ValueError
      | _, [] =>
          res_bind (get_cols t keys) (λ cols,
          res_map (λ rows, make_table keys (index_table rows))
            (index_rows cols (seq 0 (length (default [] (head cols))))))
      | _, _ =>
          let columnNames := column_names keys functions in
          res_bind (get_cols t columnNames) (λ cols,
          res_bind (group_pages keys functions columnNames [] (zip_lists cols)) (λ agg,
          res_map (make_table (new_names keys functions)) (result_rows agg)))
      end.

  (** libnimlite.nim 158-162, nimlite.py 331-332 *)
  Fixpoint str2accs (functions : list (string * string)) : res (list (string * accumulator)) :=
    match functions with
    | [] => Ok []
    | (cn, fn) :: functions =>
        res_bind (str2accumulator fn) (λ a, res_map (cons (cn, a)) (str2accs functions))
    end.
  Definition tbl_groupby (t : tbl) (keys : list string) (functions : list (string * string)) : res tbl :=
    res_bind (str2accs functions) (nim_groupby t keys).
End Groupby.
