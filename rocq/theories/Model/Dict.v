(** Python's insertion-ordered [dict] as an association list.
    Not part of tablite: CPython's dict semantics ([d[k] = v] overwrites in
    place or appends at the end; [del] removes; iteration in insertion order). *)
From Verif.Spec Require Export Base.

Section dict.
  Context {K V : Type} `{EqDecision K}.

  Fixpoint dget (d : list (K * V)) (k : K) : option V :=
    match d with
    | [] => None
    | (k', v) :: d => if decide (k = k') then Some v else dget d k
    end.

  Fixpoint dset (d : list (K * V)) (k : K) (v : V) : list (K * V) :=
    match d with
    | [] => [(k, v)]
    | (k', v') :: d => if decide (k = k') then (k', v) :: d else (k', v') :: dset d k v
    end.

  Definition ddel (d : list (K * V)) (k : K) : list (K * V) :=
    filter (λ p, p.1 ≠ k) d.

  (** [d.get(k, dflt)] *)
  Definition dget_or (d : list (K * V)) (k : K) (dflt : V) : V :=
    default dflt (dget d k).
End dict.
