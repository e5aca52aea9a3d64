(** tablite/base.py 940-1066: [Column.index], [unique], [histogram], [count]. *)
From Verif.Model Require Export Column.
Local Open Scope Z_scope.

Section stats.
  (** [K]: values up to Python's [==] (dict keys that compare equal are one
      key); [key x] is the class of [x].  Values that are not equal to
      themselves (NaN) are outside this model. *)
  Context {A T K : Type} `{EqDecision T, EqDecision K} (ty : A → T) (key : A → K).

  (** [enumerate(self.__iter__())] *)
  Definition enumerate {B} (l : list B) : list (Z * B) := zip (seqZ 0 (zlen l)) l.

  (** base.py 940-954 [Column.index]: [d = defaultdict(list); d[v].append(ix)] *)
  Definition col_index (c : column A T) : list (K * list Z) :=
    fold_left (λ d p, dset d (key p.2) (dget_or d (key p.2) [] ++ [p.1]))
              (enumerate (col_iter c)) [].

  (** [np.unique(arr, return_counts=True)] up to the order of the result:
      groups by the array's own [==]; [comparable] tells whether sorting the
      array raises TypeError.  The representative of a group is one of its
      elements (here the first). *)
  Context (comparable : list A → bool).
  Definition np_unique_counts (xs : list A) : list (A * Z) :=
    map (λ k, (k.2.1, k.2.2))
        (fold_left (λ d x, dset d (key x) (match dget d (key x) with
                                           | None => (x, 1)
                                           | Some (y, n) => (y, n + 1)
                                           end)) xs []).

  (** base.py 981-1005 [Column.histogram] as the dict [d] keyed by (type, value) *)
  Definition histogram_page (d : list ((T * K) * Z)) (p : page A T) : list ((T * K) * Z) :=
    let items := if comparable (pdata p) then np_unique_counts (pdata p)
                 else map (λ x, (x, 1)) (pdata p) in
    fold_left (λ d i, dset d (ty i.1, key i.1) (dget_or d (ty i.1, key i.1) 0 + i.2)) items d.
  Definition col_histogram (c : column A T) : list ((T * K) * Z) :=
    fold_left histogram_page c [].

  (** base.py 956-979 [Column.unique]: [np.unique] per page, then over the union;
      [multitype_set] (datatypes.py 854-) when the values cannot be sorted, which
      groups by (type, value).  [set(self.pages)] visits each page object once; visiting a
      repeated page again does not change the result, the order of which is not modelled. *)
  Fixpoint dedup_by {B} `{EqDecision B} (f : A → B) (seen : list B) (xs : list A) : list A :=
    match xs with
    | [] => []
    | x :: xs => if decide (f x ∈ seen) then dedup_by f seen xs
                 else x :: dedup_by f (f x :: seen) xs
    end.
  Definition uniq (xs : list A) : list A :=
    if comparable xs then dedup_by key [] xs else dedup_by (λ x, (ty x, key x)) [] xs.
  Definition col_unique (c : column A T) : res (list A) :=
    match c with
    | [] => Err ValueError (* np.concatenate([]) in np_type_unify *)
    | _ => Ok (uniq (concat (map (λ p, uniq (pdata p)) c)))
    end.

  (** base.py 1026-1066 [Column.count]; [is_obj p] tells whether the page's
      array has dtype object *)
  Context (is_obj : page A T → bool).
  Definition col_count (c : column A T) (item : A) : Z :=
    fold_left (λ n p, n +
      if is_obj p
      then zlen (filter (λ x, ty x = ty item ∧ key x = key item) (pdata p))
      else zlen (filter (λ x, key x = key item) (pdata p))) c 0.
End stats.
