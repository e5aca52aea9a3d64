(** Python's [sorted]: a stable sort (reference: insertion sort). *)
From Verif.Spec Require Export Base.

Section PySort.
  Context {A : Type} (leb : A → A → bool).

  Fixpoint py_insert (x : A) (l : list A) : list A :=
    match l with
    | [] => [x]
    | y :: l => if leb x y then x :: y :: l else y :: py_insert x l
    end.

  Definition py_sort (l : list A) : list A := fold_right py_insert [] l.
End PySort.

Example py_sort_test :
  py_sort (λ a b : nat * nat, (a.1 <=? b.1)%nat) [(2, 0); (1, 1); (2, 2); (1, 3)]%nat
  = [(1, 1); (1, 3); (2, 0); (2, 2)]%nat.
Proof. reflexivity. Qed.
