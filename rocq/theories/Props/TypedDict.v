(** C115: the dictionary of ranks tells keys of different types apart.

    Full claim: a [HashDict] is a dictionary in which keys of different types are different, also if they are equal, and numpy's
    scalars are the values they hold; it works as a dictionary otherwise.

    Only the methods which the class defines do: the inherited ones use other keys (C115_method_refuted, C115_update_refuted). *)
From Coq Require Import String.
From stdpp Require Import strings.
From Verif.Model Require Import TypedDict.
From Verif.Proof Require Import TypedDictProofs.
Local Open Scope string_scope.
Local Open Scope list_scope.
Local Open Scope Z_scope.

Theorem C115_get_partial {V} (ops : list (dict_op V)) k :
  hd_getitem (hd_run ops) k = match last_stored (meant k) ops with Some x => Ok x | None => Err KeyError end.
Proof. exact (stored_get ops k). Qed.
Print Assumptions C115_get_partial.

Theorem C115_contains {V} (ops : list (dict_op V)) k : hd_contains (hd_run ops) k = true ↔ is_Some (last_stored (meant k) ops).
Proof. exact (stored_contains ops k). Qed.
Print Assumptions C115_contains.

Theorem C115_delete {V} (ops : list (dict_op V)) k : last_stored (meant k) ops = None → hd_delitem (hd_run ops) k = Err KeyError.
Proof. exact (stored_del ops k). Qed.
Print Assumptions C115_delete.

Theorem C115_keys {V} (ops : list (dict_op V)) : hd_keys (hd_run ops) = Ok (keys_stored ops).
Proof. exact (stored_keys ops). Qed.
Print Assumptions C115_keys.

Theorem C115_items {V} (ops : list (dict_op V)) : ∃ items, hd_items (hd_run ops) = Ok items ∧ items.*1 = keys_stored ops ∧
  ∀ v x, (v, x) ∈ items ↔ last_stored v ops = Some x.
Proof. exact (stored_items ops). Qed.
Print Assumptions C115_items.

(** 1, True, numpy's 1 and "1"; the key 2 comes, goes and comes again *)
Definition some_ops : list (dict_op string) :=
  [OpSet (Plain (VInt 2)) "two"; OpSet (Plain (VInt 1)) "one"; OpSet (Plain (VBool true)) "true"; OpDel (Plain (VInt 2));
   OpSet (Scalar (VInt 1)) "uno"; OpSet (Plain (VStr "1")) "text"; OpSet (Scalar (VInt 2)) "due"].
Example C115_example :
  hd_items (hd_run some_ops) = Ok [(VInt 1, "uno"); (VBool true, "true"); (VStr "1", "text"); (VInt 2, "due")] ∧
  hd_getitem (hd_run some_ops) (Plain (VInt 1)) = Ok "uno" ∧ hd_getitem (hd_run some_ops) (Scalar (VBool true)) = Ok "true" ∧
  hd_getitem (hd_run some_ops) (Plain (VInt 3)) = Err KeyError.
Proof. split_and!; by vm_compute. Qed.

(** ** The dictionary that [unix_sort] returns has the ranks of Model/Sort.v. *)
Theorem C115_ranks : ∀ L v, hd_getitem (rank_dict L) v =
  match dget (enum_dict id L) (meant v) with Some x => Ok x | None => Err KeyError end.
Proof. exact ranks_found. Qed.
Print Assumptions C115_ranks.

(** ** The inherited methods: [get] never finds anything, what [update] stores is not found. *)
Theorem C115_method {V} (ops : list (dict_op V)) k dflt : hd_get (hd_run ops) k dflt = dflt.
Proof. exact (stored_get_method ops k dflt). Qed.
Print Assumptions C115_method.
Theorem C115_method_refuted : ¬ ∀ (ops : list (dict_op Z)) k dflt x, last_stored (meant k) ops = Some x → hd_get (hd_run ops) k dflt = x.
Proof. intros H. specialize (H [OpSet (Plain (VInt 1)) 5] (Plain (VInt 1)) 0 5 eq_refl). by vm_compute in H. Qed.
Print Assumptions C115_method_refuted.

Theorem C115_update {V} (ops : list (dict_op V)) k x j : hd_getitem (hd_update (hd_run ops) k x) j = hd_getitem (hd_run ops) j.
Proof. exact (updated_get ops k x j). Qed.
Print Assumptions C115_update.
(** Nor can the keys be listed. *)
Theorem C115_update_refuted : ¬ ∀ (ops : list (dict_op Z)) k x, ∃ ks, hd_keys (hd_update (hd_run ops) k x) = Ok ks.
Proof. intros H. destruct (H [] (Plain (VInt 1)) 5) as [ks Hks]. by vm_compute in Hks. Qed.
Print Assumptions C115_update_refuted.

(** Exactly: a key of two characters or two bytes is listed by the second of them, for any other key something is raised. *)
Theorem C115_update_keys {V} (ops : list (dict_op V)) k x :
  hd_keys (hd_update (hd_run ops) k x) = res_map (λ v, keys_stored ops ++ [v]) (second_item (meant k)).
Proof. exact (updated_keys ops k x). Qed.
Print Assumptions C115_update_keys.
Example C115_update_keys_case :
  hd_keys (hd_update (hd_run [OpSet (Plain (VInt 1)) 5]) (Plain (VStr "ab")) 6) = Ok [VInt 1; VStr "b"] ∧
  hd_keys (hd_update (hd_run [OpSet (Plain (VInt 1)) 5]) (Plain (VStr "abc")) 6) = Err ValueError ∧
  hd_keys (hd_update (hd_run [OpSet (Plain (VInt 1)) 5]) (Scalar (VBytes "ab")) 6) = Ok [VInt 1; VInt 98].
Proof. vm_compute. done. Qed.

(** ** [pytype] is the type of what [numpy_to_python] returns. *)
Theorem C115_types : ∀ o, pytype o = type_of_value (numpy_to_python o) ∧ numpy_to_python o = meant o.
Proof. exact types_known. Qed.
Print Assumptions C115_types.
Theorem C115_type_names : ∀ o, type_text (pytype o) = type_name (meant o).
Proof. exact type_names. Qed.
Print Assumptions C115_type_names.
Example C115_type_names_case : type_text (pytype (Scalar (VBool true))) = "bool".
Proof. reflexivity. Qed.
