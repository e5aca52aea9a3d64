(** tablite/datatypes.py [Rank] (lines 729-753); nimlite/ranking.nim
    (lines 14-99) and nimlite/insertsort.nim (lines 1-9). *)
From Verif.Model Require Export Dict.
Local Open Scope Z_scope.

(** ** Python *)
Section PyRank.
  Context {K : Type} `{EqDecision K}.

  (** datatypes.py 730-733 *)
  Record prank := PRank {
    pr_items : list (K * nat);   (* dict: item -> position *)
    pr_ranks : list Z;
    pr_list : list K
  }.

  Definition prank_new (items : list K) : prank :=
    PRank (fold_left (λ d p, dset d p.1 p.2) (zip items (seq 0 (length items))) []) (map (λ _, 0) items) items.

  (** [l[i], l[j] = l[j], l[i]] *)
  Definition swap {A} (l : list A) (i j : nat) : list A :=
    match l !! i, l !! j with
    | Some x, Some y => <[j := x]> (<[i := y]> l)
    | _, _ => l
    end.

  (** datatypes.py 742-750.  At [ix = 0] the condition reads [r[-1]], which
      exists, and [ix > 0] ends the loop. *)
  Fixpoint bubble (k : K) (ix : nat) (s : prank) : prank :=
    match ix with
    | O => s
    | S j =>
        match pr_ranks s !! ix, pr_ranks s !! j with
        | Some a, Some b =>
            if b <? a then
              let r := swap (pr_ranks s) ix j in
              let p := swap (pr_list s) ix j in
              let items := match p !! ix with
                           | Some old => dset (dset (pr_items s) old ix) k j
                           | None => pr_items s
                           end in
              bubble k j (PRank items r p)
            else s
        | _, _ => s
        end
    end.

  (** datatypes.py 735-750 *)
  Definition prank_match (s : prank) (k : K) : res prank :=
    match dget (pr_items s) k with
    | None => Err KeyError
    | Some ix =>
        let s := PRank (pr_items s) (alter (λ v, v + 1) ix (pr_ranks s)) (pr_list s) in
        Ok (bubble k ix s)
    end.
End PyRank.
Arguments prank : clear implicits.

(** ** Nim *)
(** insertsort.nim 5-9: [value] moves left past every element it compares before *)
Fixpoint insert_left {A} (cmp : A → A → bool) (v : A) (rev_prefix : list A) : list A :=
  match rev_prefix with
  | [] => [v]
  | x :: l => if cmp v x then x :: insert_left cmp v l else v :: x :: l
  end.

(** insertsort.nim 1-9; the sorted prefix is kept reversed (nearest first) *)
Definition insertSort {A} (cmp : A → A → bool) (a : list A) : list A :=
  rev (fold_left (λ acc v, insert_left cmp v acc) a []).

(** ranking.nim 5-12 *)
Inductive ntype :=
| DT_NONE | DT_BOOL | DT_DATE_SHORT
| DT_INT_SIMPLE | DT_INT_US | DT_INT_EU | DT_FLOAT_SIMPLE | DT_FLOAT_US | DT_FLOAT_EU
| DT_DATETIME | DT_DATETIME_US | DT_DATE | DT_DATE_US | DT_TIME | DT_STRING.
Global Instance ntype_eq_dec : EqDecision ntype.
Proof. solve_decision. Defined.

Definition all_ntypes : list ntype :=
  [DT_NONE; DT_BOOL; DT_DATE_SHORT; DT_INT_SIMPLE; DT_INT_US; DT_INT_EU; DT_FLOAT_SIMPLE;
   DT_FLOAT_US; DT_FLOAT_EU; DT_DATETIME; DT_DATETIME_US; DT_DATE; DT_DATE_US; DT_TIME; DT_STRING].

Definition nrank := list (ntype * Z).

(** ranking.nim 16-22 *)
Definition newRank : nrank := map (λ t, (t, 0)) all_ntypes.

(** ranking.nim 32-39 *)
Definition cmpDtypes (a b : ntype * Z) : bool := b.2 <? a.2.
Definition cmpDtypesStringless (a b : ntype * Z) : bool :=
  if bool_decide (a.1 = DT_STRING) && (0 <? b.2) then false
  else if bool_decide (b.1 = DT_STRING) && (0 <? a.2) then true
  else cmpDtypes a b.

(** ranking.nim 47-99.  [fits t v]: the inference function of type [t] accepts
    the string [v] (infertypes.nim, a parameter here; [DT_STRING] accepts
    everything, line 78).  Lines 53-94 find the first accepting entry; were
    there none, [index] and the other variables keep their zero values. *)
Definition updateRank {V} (fits : ntype → V → bool) (r : nrank) (v : V) : ntype * nrank :=
  let accept (e : ntype * Z) := bool_decide (e.1 = DT_STRING) || fits e.1 v in
  let '(index, (dt, cnt)) := match list_find (λ e, Is_true (accept e)) r with
                             | Some p => p
                             | None => (0%nat, (DT_NONE, 0))
                             end in
  (dt, insertSort cmpDtypesStringless (<[index := (dt, cnt + 1)]> r)).

(** The importer calls [updateRank] on one string after the other
    (text_reader.nim, rank mode). *)
Definition runRank {V} (fits : ntype → V → bool) (vs : list V) : list ntype * nrank :=
  fold_left (λ acc v, let '(dt, r) := updateRank fits acc.2 v in (acc.1 ++ [dt], r)) vs ([], newRank).
