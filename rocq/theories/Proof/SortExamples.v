(** Concrete tables for C43 and C44. *)
From Verif.Spec Require Import SortOrder Rows.
From Verif.Model Require Import Sort.
From Verif.Proof Require Import SortProofs SortRanks SortBase.
Local Open Scope Z_scope.

(** a table with pages of 2 *)
Definition vtable (cols : list (string * list pyval)) : table string pyval unit :=
  map (λ c, (c.1, col_new (λ _, tt) 2 c.2)) cols.
(** collation by character codes *)
Fixpoint codes (s : string) : list Z :=
  match s with EmptyString => [] | String a s => Z.of_nat (Ascii.nat_of_ascii a) :: codes s end.
(** [str] of the values used *)
Definition vstr (v : pyval) : string :=
  match v with
  | VStr s => s | VInt 1 => "1" | VInt _ => "2" | VNone => "None" | VBool true => "True" | VBool false => "False" | _ => ""
  end.

Lemma stable_seq n (l : list nat) (c : nat → nat → comparison) (P : list nat → Prop) :
  (∀ i j, c j i = CompOpp (c i j)) → stable_order n c l → ¬ P l → ¬ ∃ ixs, stable_order n c ixs ∧ P ixs.
Proof.
  intros Hc Hl HP (ixs & Hi & Hp). apply HP. by rewrite (stable_order_unique n c l ixs).
Qed.

Ltac sorted := repeat match goal with |- StronglySorted _ _ => constructor | |- Forall _ _ => constructor end.

Lemma unix_tie :
  let t := vtable [("a", [VFloat (Qc_of_Z 1); VInt 1; VFloat (Qc_of_Z 1)])]%string in
  ∃ r, sort codes vstr (λ _, tt) 2 remove_dups t Unix [("a", false)]%string = Ok r ∧
  ¬ ∃ ixs, stable_order 3 (levels_cmp [(unix_cmp codes, field VNone (contents t) "a"%string)]) ixs ∧
      rows VNone (contents r) = map (row VNone (contents t)) ixs.
Proof.
  intros t. eexists. split; [by vm_compute|].
  apply (stable_seq 3 [0; 1; 2]%nat _ (λ ixs, rows VNone _ = map (row VNone (contents t)) ixs)).
  - intros. exact (levels_opp codes vstr t Unix [("a", false)]%string i j).
  - split; [done|]. sorted; right; (split; [by vm_compute|lia]).
  - intros H. vm_compute in H. discriminate H.
Qed.
Lemma unix_descending :
  let t := vtable [("a", [VInt 1; VStr "x"])]%string in
  ∃ r, sort codes vstr (λ _, tt) 2 remove_dups t Unix [("a", true)]%string = Ok r ∧
  ¬ ∃ ixs, stable_order 2 (levels_cmp [(dir_cmp true (unix_cmp codes), field VNone (contents t) "a"%string)]) ixs ∧
      rows VNone (contents r) = map (row VNone (contents t)) ixs.
Proof.
  intros t. eexists. split; [by vm_compute|].
  apply (stable_seq 2 [1; 0]%nat _ (λ ixs, rows VNone _ = map (row VNone (contents t)) ixs)).
  - intros. exact (levels_opp codes vstr t Unix [("a", true)]%string i j).
  - split; [apply Permutation_swap|]. sorted; left; by vm_compute.
  - intros H. vm_compute in H. discriminate H.
Qed.
Lemma excel_bool :
  let t := vtable [("a", [VBool true; VInt 1])]%string in
  ∃ r, sort codes vstr (λ _, tt) 2 remove_dups t Excel [("a", false)]%string = Ok r ∧
  ¬ ∃ ixs, stable_order 2 (levels_cmp [(excel_cmp codes, field VNone (contents t) "a"%string)]) ixs ∧
      rows VNone (contents r) = map (row VNone (contents t)) ixs.
Proof.
  intros t. eexists. split; [by vm_compute|].
  apply (stable_seq 2 [1; 0]%nat _ (λ ixs, rows VNone _ = map (row VNone (contents t)) ixs)).
  - intros. exact (levels_opp codes vstr t Excel [("a", false)]%string i j).
  - split; [apply Permutation_swap|]. sorted; left; by vm_compute.
  - intros H. vm_compute in H. discriminate H.
Qed.

Lemma example_sortable :
  sortable codes vstr Excel false [VNone; VStr "b"; VInt 3; VBool true; VStr "a"; VTime 43200000000; VDate (-25565)].
Proof.
  split.
  - intros a Ha. repeat (apply elem_of_cons in Ha as [->|Ha]; [done|]). by apply elem_of_nil in Ha.
  - intros a b Ha Hb.
    repeat (apply elem_of_cons in Ha as [->|Ha]); [..|by apply elem_of_nil in Ha];
    (repeat (apply elem_of_cons in Hb as [->|Hb]); [..|by apply elem_of_nil in Hb]);
    (split; [done|]; split; [done|]); try done; intros _ _; (by left) || right.
    all: split; [done|]; split; [done|]; intros H; apply Qceq_alt in H; by vm_compute in H.
Qed.
