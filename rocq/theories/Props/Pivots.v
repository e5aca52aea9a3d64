(** C58: transpose and pivot_transpose. *)
From Verif.Proof Require Import PivotsProofs.
Local Open Scope Z_scope.

(** ** transpose *)

(** The full statement: every value of the table is found in the result, at the swapped position.
    False: the values of the first column become names, and of two equal names the last one wins. *)
Theorem C58_transpose_refuted :
  ∃ (t t' : table cell cell ctype) x,
    transpose cty CNone 4 id id t = Ok t' ∧ x ∈ concat (map snd (contents t)) ∧
    x ∉ concat (map snd (contents t')).
Proof. exact transpose_duplicates. Qed.
Print Assumptions C58_transpose_refuted.

(** When the values of the first column differ from each other and from its name: the first
    column of the result has the other names, then there is a column for every row. *)
Theorem C58_transpose_partial {N A T} `{EqDecision N, EqDecision T} (ty : A → T) (none : A) (ps : Z)
    (name_val : N → A) (as_key : A → N) (first : N) (c : column A T) (rest : table N A T) :
  0 < ps →
  let t : table N A T := (first, c) :: rest in
  let rs := rows none (contents t) in
  NoDup (first :: map (λ r, as_key (hd none r)) rs) →
  ∃ t', transpose ty none ps name_val as_key t = Ok t' ∧
    contents t' = (first, map name_val rest.*1) :: map (λ r, (as_key (hd none r), tl r)) rs.
Proof. exact (transpose_spec ty none ps name_val as_key first c rest). Qed.
Print Assumptions C58_transpose_partial.

Example C58_transpose_example :
  res_map contents (transpose cty CNone 4 id id
     (tbl_of_columns cty 2 [(CStr "k", [CStr "x"; CStr "y"; CStr "z"]); (CStr "a", [CInt 1; CInt 2; CInt 3]); (CStr "b", [CInt 4; CInt 5])]))
  = Ok [(CStr "k", [CStr "a"; CStr "b"]); (CStr "x", [CInt 1; CInt 4]); (CStr "y", [CInt 2; CInt 5]); (CStr "z", [CInt 3; CNone])].
Proof. by vm_compute. Qed.

(** ** pivot_transpose *)

(** The full statement: [rows] of the result are [concat (map (unpivot ...) rows)] whatever the
    arguments.  False: the columns are converted by [np.array], which turns numbers into texts next
    to a text; *)
Theorem C58_text_refuted :
  ∃ t t', pivot_transpose cty CNone 4 CStr np_array_of 100 t ["b"; "c"]%string ["a"]%string "transpose" "value" = Ok t' ∧
    contents t = [("a", [CInt 1]); ("b", [CInt 2]); ("c", [CStr "x"])]%string ∧
    contents t' = [("a", [CInt 1; CInt 1]); ("transpose", [CStr "b"; CStr "c"]); ("value", [CStr "2"; CStr "x"])]%string.
Proof. exact pivot_text. Qed.
Print Assumptions C58_text_refuted.
(** a column which is kept and transposed gets the values of the next one; *)
Theorem C58_overlap_refuted :
  ∃ t t', pivot_transpose cty CNone 4 CStr np_array_of 100 t ["a"; "b"]%string ["a"]%string "transpose" "value" = Ok t' ∧
    contents t = [("a", [CInt 1]); ("b", [CInt 2])]%string ∧
    contents t' = [("a", [CInt 1]); ("transpose", [CStr "a"]); ("value", [CInt 2])]%string.
Proof. exact pivot_overlap. Qed.
Print Assumptions C58_overlap_refuted.
(** and equal names for the two new columns are not told apart. *)
Theorem C58_same_name_refuted :
  ∃ t t', pivot_transpose cty CNone 4 CStr id 100 t ["b"]%string ["a"]%string "value" "value" = Ok t' ∧
    contents t = [("a", [CInt 1]); ("b", [CInt 2])]%string ∧
    contents t' = [("a", [CInt 1]); ("value", [CStr "b"; CInt 2])]%string.
Proof. exact pivot_same_name. Qed.
Print Assumptions C58_same_name_refuted.

(** For all tables (ragged ones too), page sizes and processing limits: separate names, and columns
    which [np.array] keeps. *)
Theorem C58_pivot_transpose_partial {A T} `{EqDecision T} (ty : A → T) (none : A) (ps : Z)
    (name_val : string → A) (np_array : list A → list A) (limit : Z)
    (t : table string A T) (columns keep : list string) (column_name value_name : string) :
  0 < ps → keep ++ columns ≠ [] → NoDup (keep ++ columns) → (∀ n, n ∈ keep ++ columns → n ∈ t.*1) →
  column_name ∉ keep ++ columns → value_name ∉ keep ++ columns → column_name ≠ value_name →
  let sel := map (λ n, (n, default [] (dget (contents t) n))) (keep ++ columns) in
  let out := concat (map (unpivot name_val (length keep) columns) (rows none sel)) in
  (∀ i l, l `suffix_of` map (λ r, default none (r !! i)) out → np_array l = l) →
  ∃ t', pivot_transpose ty none ps name_val np_array limit t columns keep column_name value_name = Ok t' ∧
    names (contents t') = keep ++ [column_name; value_name] ∧
    rect (length out) (contents t') ∧ rows none (contents t') = out.
Proof. exact (pivot_transpose_final ty none ps name_val np_array limit t columns keep column_name value_name). Qed.
Print Assumptions C58_pivot_transpose_partial.

Example C58_pivot_transpose_example :
  let t := cell_cols [("a", [CInt 1; CInt 2; CInt 3]); ("b", [CInt 4; CInt 5; CInt 6]); ("c", [CInt 7; CInt 8])]%string in
  let out := concat (map (unpivot CStr 1 ["b"; "c"]%string) (rows CNone (contents t))) in
  Forall (λ i, Forall (λ j, let l := drop j (map (λ r, default CNone (r !! i)) out) in np_array_of l = l) (seq 0 7)) (seq 0 4) ∧
  res_map (rows CNone ∘ contents)
    (pivot_transpose cty CNone 4 CStr np_array_of 2 t ["b"; "c"]%string ["a"]%string "transpose" "value") = Ok out ∧
  out = [[CInt 1; CStr "b"; CInt 4]; [CInt 1; CStr "c"; CInt 7]; [CInt 2; CStr "b"; CInt 5];
         [CInt 2; CStr "c"; CInt 8]; [CInt 3; CStr "b"; CInt 6]; [CInt 3; CStr "c"; CNone]].
Proof. cbv zeta. split; [|by vm_compute]. apply (bool_decide_unpack _). by vm_compute. Qed.
