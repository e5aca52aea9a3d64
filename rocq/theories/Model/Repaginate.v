(** nimlite/numpy.nim: [calcRepaginationSteps] (1129-1169) and [repaginate] (1171-1243);
    libnimlite.nim 22-26; tablite/base.py 246-250.

    Reading a page gives its values; the casts of [toObjectPage] keep them.  [kinds] is the
    enumeration KindObjectND, [T] the Python types it stands for. *)
From Verif.Model Require Export Column.
Local Open Scope Z_scope.

(** a step: page number, start offset, end offset *)
Definition step : Type := Z * Z * Z.

(** [steps[i].add(x)]; None: index out of range *)
Definition add_step (steps : list (list step)) (i : Z) (x : step) : option (list (list step)) :=
  match znth steps i with
  | None => None
  | Some l => Some (<[Z.to_nat i := l ++ [x]]> steps)
  end.

(** lines 1148-1167.  [fuel] bounds the number of rounds; running out of it is [OtherError]
    (the loop would not have ended). *)
Fixpoint calc_loop (fuel : nat) (shapes : list Z) (pageSize colLen : Z)
    (steps : list (list step)) (stepIndex offset pgIndex consumed pageConsumed : Z) : res (list (list step)) :=
  if offset <? colLen then
    match fuel with
    | O => Err OtherError
    | S fuel =>
        match znth shapes pgIndex with
        | None => Err IndexError
        | Some pgSize =>
            let pageLeftover := Z.max (pageSize - pageConsumed) 0 in
            let needsToConsume := Z.min (colLen - offset) pageLeftover in
            let consumableElems := Z.min needsToConsume (pgSize - consumed) in
            match add_step steps stepIndex (pgIndex, consumed, consumed + consumableElems) with
            | None => Err IndexError
            | Some steps =>
                let consumed := consumed + consumableElems in
                let offset := offset + consumableElems in
                let pageConsumed := pageConsumed + consumableElems in
                let '(stepIndex, pageConsumed) :=
                  if pageConsumed =? pageSize then (stepIndex + 1, 0) else (stepIndex, pageConsumed) in
                let '(pgIndex, consumed) :=
                  if consumed =? pgSize then (pgIndex + 1, 0) else (pgIndex, consumed) in
                calc_loop fuel shapes pageSize colLen steps stepIndex offset pgIndex consumed pageConsumed
            end
        end
    end
  else Ok steps.

(** 1129-1169; the division of line 1139 is taken to be exact *)
Definition calc_steps (shapes : list Z) (pageSize : Z) : res (list (list step)) :=
  let colLen := fold_left Z.add shapes 0 in
  let resultPages := cdiv colLen pageSize in
  calc_loop (Z.to_nat colLen + length shapes) shapes pageSize colLen (replicate (Z.to_nat resultPages) []) 0 0 0 0 0.

Section Repaginate.
  Context {A T : Type} `{EqDecision T} (ty : A → T) (kinds : list T).

  (** lines 1193-1210 and 1217-1234: the values of one step *)
  Definition step_data (c : column A T) (s : step) : option (list A) :=
    let '(pageIdx, startOffset, endOffset) := s in
    match znth c pageIdx with
    | None => None
    | Some p => Some (arr_slice (pdata p) startOffset endOffset)
    end.

  (** 1181-1183, 1209: [dtypes] starts with a zero for every kind; a value of another kind is
      a KeyError *)
  Definition count_kinds (l : list A) : res (list (T * Z)) :=
    if forallb (λ x, bool_decide (ty x ∈ kinds)) l
    then Ok (fold_left (λ d x, dset d (ty x) (dget_or d (ty x) 0 + 1)) l (map (λ k, (k, 0)) kinds))
    else Err KeyError.

  (** 1212-1243 *)
  Fixpoint make_pages (c : column A T) (steps : list (list step)) : res (column A T) :=
    match steps with
    | [] => Ok []
    | s :: steps =>
        match mapM (step_data c) s with
        | None => Err IndexError
        | Some buf =>
            res_bind (count_kinds (concat buf)) (λ dtypes,
            res_map (cons (MkPage (concat buf) dtypes)) (make_pages c steps))
        end
    end.

  Definition repaginate (ps : Z) (c : column A T) : res (column A T) :=
    match c with
    | [] => Ok []
    | _ => res_bind (calc_steps (map plen c) ps) (make_pages c)
    end.
End Repaginate.
