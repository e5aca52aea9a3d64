(** C102: the page files of an import of text. *)
From Verif.Model Require Import FileTracker.
From Verif.Proof Require Import FileTrackerProofs.
Local Open Scope Z_scope.

(** C102: whatever the number of pages and the limit on open files, every page file holds in the end exactly what was
    written to it, in order, no other file is touched, and never more files than the limit are open.  False in general:
    see below. *)

(** For page files with different names and a limit of at least one; the C library may empty the buffers when it likes. *)
Theorem C102_contents_partial {P B} `{EqDecision P} limit (pages : list P) (ops : list (file_op B)) f0 :
  1 <= limit → NoDup pages → (∀ i bytes, Put i bytes ∈ ops → (i < length pages)%nat) →
  ∃ f, write_files limit pages ops f0 = Ok f ∧
    (∀ i p, pages !! i = Some p → f p = Some (written i ops)) ∧ (∀ q, q ∉ pages → f q = f0 q).
Proof. exact (write_files_spec limit pages ops f0). Qed.
Definition C102_ops : list (file_op Z) := [Put 0 [1]; Put 1 [2]; Put 2 [3; 4]; Spill 2; Put 0 [5]; Put 2 [6]; Put 1 [7]].
Example C102_contents_case :
  map (λ limit, res_map (λ f, (f 10, f 20, f 30, f 40)) (write_files limit [10; 20; 30] C102_ops (λ q, if q =? 40 then Some [9] else None)))
    [1; 2; 3; 4] = replicate 4 (Ok (Some [1; 5], Some [2; 7], Some [3; 4; 6], Some [9])) ∧
  NoDup [10; 20; 30].
Proof. split; [by vm_compute|]. repeat constructor; set_solver. Qed.
Print Assumptions C102_contents_partial.

Theorem C102_open_partial {P B} `{EqDecision P} limit (pages : list P) (ops : list (file_op B)) f0 w :
  1 <= limit → NoDup pages → (∀ i bytes, Put i bytes ∈ ops → (i < length pages)%nat) →
  do_ops limit (new_tracker limit pages f0) ops = Ok w → open_files (state w) <= limit.
Proof. exact (write_files_open limit pages ops f0 w). Qed.
Example C102_open_case :
  res_map (λ w, open_files (state w)) (do_ops 2 (new_tracker 2 [10; 20; 30] (λ _, None)) C102_ops) = Ok 2.
Proof. by vm_compute. Qed.
Print Assumptions C102_open_partial.

(** With a limit of zero or less, which the environment may give, the first write fails. *)
Theorem C102_limit_refuted {P B} `{EqDecision P} limit (pages : list P) i bytes (ops : list (file_op B)) f0 :
  limit <= 0 → (0 < length pages)%nat → write_files limit pages (Put i bytes :: ops) f0 = Err OtherError.
Proof. exact (no_files limit pages i bytes ops f0). Qed.
Example C102_limit_case : res_map (λ f, f 10) (write_files 0 [10] [Put 0 [1]] (λ _, None)) = Err OtherError.
Proof. by vm_compute. Qed.
Print Assumptions C102_limit_refuted.

(** Writing to a page that does not exist raises. *)
Theorem C102_outside {P B} `{EqDecision P} limit (pages : list P) i bytes (ops : list (file_op B)) f0 :
  1 <= limit → NoDup pages → (length pages ≤ i)%nat → (∀ i bytes, Put i bytes ∈ ops → (i < length pages)%nat) →
  write_files limit pages (ops ++ [Put i bytes]) f0 = Err IndexError.
Proof. exact (outside limit pages i bytes ops f0). Qed.
Example C102_outside_case : res_map (λ f, f 10) (write_files 2 [10; 20; 30] (C102_ops ++ [Put 3 [1]]) (λ _, None)) = Err IndexError.
Proof. by vm_compute. Qed.
Print Assumptions C102_outside.

(** Two pages with the same name: what the file holds depends on the limit. *)
Theorem C102_same_name_refuted :
  res_map (λ f, f 10) (write_files 2 [10; 10] [Put 0 [1]; Put 1 [2]; Put 0 [3]] (λ _, None)) = Ok (Some [2; 3]) ∧
  res_map (λ f, f 10) (write_files 1 [10; 10] [Put 0 [1]; Put 1 [2]; Put 0 [3]] (λ _, None)) = Ok (Some [1; 2; 3]).
Proof. by vm_compute. Qed.
Print Assumptions C102_same_name_refuted.

(** "The deferred kind closes a file only to open another": false, when the limit is reached a file is closed even if the
    one that is asked for is open: here file 0 for file 1, and then file 1 itself. *)
Theorem C102_needless_refuted :
  let opened ops := res_map (λ w, map (λ i, match handle_of (state w) i with Some _ => true | None => false end) [0; 1; 2]%nat)
                      (do_ops 2 (new_tracker 2 [10; 20; 30] (λ _, None)) ops) in
  opened [Put 0 [1]; Put 1 [2]] = Ok [true; true; false] ∧
  opened [Put 0 [1]; Put 1 [2]; Put 1 [3]] = Ok [false; true; false].
Proof. by vm_compute. Qed.
Print Assumptions C102_needless_refuted.
