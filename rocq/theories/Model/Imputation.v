(** tablite/imputation.py: [carry_forward] and [stats_method] as programs over the tables of
    Heap.v.  Table i is [T], table k the result [new]; the progress bar is left out.  After an
    exception table k is what [new] was by then; it is not returned. *)
From Verif.Model Require Export Heap Stats.
Local Open Scope Z_scope.

Section Imputation.
  (** [key]: the class of a value under [==] (ColumnStats.v); [none] is None *)
  Context {N A T K : Type} `{EqDecision N, EqDecision T, EqDecision K} (ty : A → T) (key : A → K) (none : A).
  Context (ps : Z) (cast : list (page A T) → A → res A) (np_array : list A → list A) (eqb : A → A → bool).
  (** the set [missing] *)
  Context (missing : list A).
  Notation heap := (heap N A T).
  Notation step := (step ty ps cast np_array eqb).
  Definition is_missing (v : A) : bool := existsb (eqb v) missing.

  (** imputation.py 63-70: [targets] given as a list of names *)
  Definition check_targets (columns targets : list N) : res () :=
    if forallb (λ name, bool_decide (name ∈ columns)) targets then Ok () else Err ValueError.

  (** 115-119; [conv] is what assigning to the array stores *)
  Fixpoint carry_loop (conv : A → res A) (data : list A) (last_value : A) : res (list A) :=
    match data with
    | [] => Ok []
    | v :: data =>
        if is_missing v
        then res_bind (conv last_value) (λ w, res_map (cons w) (carry_loop conv data last_value))
        else res_map (cons v) (carry_loop conv data v)
    end.
  (** 111-123; [cast c] stands for assigning to [c[:]] *)
  Fixpoint carry_columns (h : heap) (i k : nat) (columns : list (N * nat)) (targets : list N) : heap * res () :=
    match columns with
    | [] => (h, Ok ())
    | (name, a) :: columns =>
        if bool_decide (name ∈ targets) then
          let c := col_view h a in
          match res_bind (col_getslice c (Slice None None None)) (λ data, carry_loop (cast c) data none) with
          | Err e => (h, Err e)
          | Ok data => carry_columns (step h (OSet k name data)).1 i k columns targets
          end
        else carry_columns (step h (OSetCol k name i name)).1 i k columns targets
    end.
  (** 103-125 *)
  Definition carry_forward (h : heap) (i k : nat) (targets : list N) : heap * res () :=
    match check_targets (tabs h i).*1 targets with
    | Err e => (h, Err e)
    | Ok _ => let h := (step h (OCopy i k)).1 in carry_columns h i k (tabs h i) targets
    end.

  (** ** mean and mode *)
  (** 143-148, for one value of [missing]: the first entry equal to it *)
  Fixpoint zero_count (hist : list ((T * K) * Z)) (m : K) : list ((T * K) * Z) :=
    match hist with
    | [] => []
    | e :: hist => if decide (e.1.2 = m) then (e.1, 0) :: hist else e :: zero_count hist m
    end.

  (** utils.py 205-230 [summary_statistics]: [f t] is [summary_methods[t]] followed by [[method]];
      None is the empty dict *)
  Definition type_totals (hist : list ((T * K) * Z)) : list (T * Z) :=
    fold_left (λ d e, dset d e.1.1 (dget_or d e.1.1 0 + e.2)) hist [].
  (** [max(dtypes, key=dtypes.get)]: the first of the largest *)
  Definition first_max (d : list (T * Z)) : option (T * Z) :=
    fold_left (λ m e, match m with None => Some e | Some b => if b.2 <? e.2 then Some e else m end) d None.
  Definition summary_statistics (f : T → list (K * Z) → res A) (hist : list ((T * K) * Z)) : res A :=
    match first_max (type_totals hist) with
    | Some (t, n) =>
        if 0 <? n then f t (omap (λ e : (T * K) * Z, if decide (e.1.1 = t) then Some (e.1.2, e.2) else None) hist)
        else Err KeyError                                  (* [{}[method]], imputation.py 152 *)
    | None => Err KeyError
    end.

  (** the methods of numeric types; [num] is the number a value is, [of_num] the value with that
      number (rounding is left out), [other] the methods of the other types *)
  Context (is_num : T → bool) (num : K → Q) (of_num : Q → A) (other : T → list (K * Z) → res A).
  Inductive method := Mean | Mode.
  Definition summary_method (me : method) (t : T) (vc : list (K * Z)) : res A :=
    if is_num t then
      res_bind (numeric_summary (map (λ e, (num e.1, e.2)) vc)) (λ s,
        match me with
        | Mean => Ok (of_num (st_mean s))
        | Mode => match st_mode s with Some q => Ok (of_num q) | None => Ok none end
        end)
    else other t vc.

  (** [comparable]: whether [np.unique] works on the page, see ColumnStats.v *)
  Context (comparable : list A → bool).
  Definition new_value (me : method) (c : column A T) : res A :=
    summary_statistics (summary_method me) (fold_left zero_count (map key missing) (col_histogram ty key comparable c)).
  (** 136-157 *)
  Fixpoint stats_columns (me : method) (h : heap) (i k : nat) (columns : list (N * nat)) (targets : list N) : heap * res () :=
    match columns with
    | [] => (h, Ok ())
    | (name, a) :: columns =>
        if bool_decide (name ∈ targets) then
          match new_value me (col_view h a) with
          | Err e => (h, Err e)
          | Ok v =>
              match step h (OCol i name (Replace (map (λ m, (m, v)) missing))) with
              | (h, Err e) => (h, Err e)
              | (h, Ok _) => stats_columns me (step h (OSetCol k name i name)).1 i k columns targets
              end
          end
        else stats_columns me (step h (OSetCol k name i name)).1 i k columns targets
    end.
  (** 128-159 *)
  Definition stats_method (me : method) (h : heap) (i k : nat) (targets : list N) : heap * res () :=
    match check_targets (tabs h i).*1 targets with
    | Err e => (h, Err e)
    | Ok _ => let h := (step h (OCopy i k)).1 in stats_columns me h i k (tabs h i) targets
    end.
End Imputation.
