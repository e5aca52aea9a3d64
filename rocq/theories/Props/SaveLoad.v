(** C20: saving and loading.

    [save set_of t] is the archive with the way in which the call ends, for any order [set_of] in
    which a set of pages is written.  [load ty ps a]: loading with the page size [ps].
    [contents]: names and values. *)
From stdpp Require Import strings.
From Verif.Model Require Import Table SaveLoad.
From Verif.Proof Require Import ColumnMisc SaveLoadProofs.
Local Open Scope string_scope.
Local Open Scope list_scope.
Local Open Scope Z_scope.

(** Full statement: [save] succeeds and [load] gives the same contents.  [save] raises
    ZeroDivisionError when no column has a page. *)
Theorem C20_empty_refuted {A T} (set_of : list (fpage A T) → list (fpage A T)) :
  (save set_of [("a", []); ("b", [])]).2 = Err ZeroDivisionError.
Proof. done. Qed.
(** Pages with the same file name in different directories are mixed up: the table with the
    columns a = [1], b = [2] comes back as a = [2], b = [2]. *)
Definition one_page (dir : string) (v : Z) : fpage Z () := MkFpage [dir; "pages"] "1.npy" (new_page (λ _, ()) [v]).
Theorem C20_names_refuted :
  let t := [("a", [one_page "pid-7" 1]); ("b", [one_page "pid-8" 2])] in
  (save id t).2 = Ok () ∧
  res_map contents (load (λ _ : Z, ()) 10 (save id t).1) = Ok [("a", [2]); ("b", [2])].
Proof. done. Qed.

(** Proved: the archive, which is complete even then, gives back the table whenever pages with the
    same name have the same values, with correct type counts, ... *)
Theorem C20_roundtrip_partial {N A T} `{EqDecision N, EqDecision T} (ty : A → T) set_of ps (t : list (N * list (fpage A T))) :
  (∀ l p, p ∈ set_of l ↔ p ∈ l) → 0 < ps → NoDup t.*1 →
  (∀ c d p q, c ∈ t → d ∈ t → p ∈ c.2 → q ∈ d.2 → fname p = fname q → pdata (fpg p) = pdata (fpg q)) →
  ∃ t', load ty ps (save set_of t).1 = Ok t' ∧ contents t' = contents (plain t) ∧ Forall (λ c, types_ok ty c.2) t'.
Proof. exact (λ H, save_load ty set_of H ps t). Qed.
(** ... and the call succeeds iff a column has a page. *)
Theorem C20_save_ends_partial {N A T} (set_of : list (fpage A T) → list (fpage A T)) (t : list (N * list (fpage A T))) :
  (save set_of t).2 = Ok () ↔ ∃ c, c ∈ t ∧ c.2 ≠ [].
Proof. exact (save_ends set_of t). Qed.

(** a page shared by two columns and repeated, saved with pages of 2 and loaded with pages of 3 *)
Definition pg (n : string) (l : list Z) : fpage Z () := MkFpage ["d"; "pages"] n (new_page (λ _, ()) l).
Definition t20 : list (string * list (fpage Z ())) :=
  [("a", [pg "1-1.npy" [1; 2]; pg "1-1.npy" [1; 2]; pg "1-2.npy" []]); ("b", []); ("c", [pg "1-3.npy" [3; 4]; pg "1-1.npy" [1; 2]])].
Example C20_example :
  NoDup t20.*1 ∧
  (∀ c d p q, c ∈ t20 → d ∈ t20 → p ∈ c.2 → q ∈ d.2 → fname p = fname q → pdata (fpg p) = pdata (fpg q)) ∧
  (save (@rev _) t20).2 = Ok () ∧
  res_map contents (load (λ _, ()) 3 (save (@rev _) t20).1) = Ok [("a", [1; 2; 1; 2]); ("b", []); ("c", [3; 4; 1; 2])].
Proof.
  split; [by apply (bool_decide_unpack _); vm_compute|].
  split; [|by vm_compute]. intros c d p q Hc Hd Hp Hq.
  assert (H : ∀ c p, c ∈ t20 → p ∈ c.2 → p ∈ [pg "1-1.npy" [1; 2]; pg "1-2.npy" []; pg "1-3.npy" [3; 4]]).
  { clear. intros c p Hc Hp. unfold t20 in Hc. rewrite !elem_of_cons in *.
    destruct Hc as [->|[->|[->|[]%elem_of_nil]]]; cbn [snd] in Hp; rewrite ?elem_of_cons in Hp; set_solver. }
  apply (H c p Hc) in Hp. apply (H d q Hd) in Hq. rewrite !elem_of_cons in Hp, Hq.
  by destruct Hp as [->|[->|[->|[]%elem_of_nil]]]; destruct Hq as [->|[->|[->|[]%elem_of_nil]]].
Qed.
Print Assumptions C20_empty_refuted.
Print Assumptions C20_names_refuted.
Print Assumptions C20_roundtrip_partial.
Print Assumptions C20_save_ends_partial.
