(** C18, C19: page objects and page files.

    [run pid cfg true os (start fs)]: the state after the history [os] (creating, unpickling or
    copying, dropping page objects in any of the processes [P]) when there were the files [fs] at
    the start; [pid p] is the process id of [p], [cfg p] its Config.pid, [true]: automatic
    clean-up.  [objs s] are the live objects with their process and path.  [owns cfg p f]: the
    process takes [f] for a file in its own directory.  [attach_found pid cfg f os]: every
    unpickled page with the file [f] finds it at that moment. *)
From stdpp Require Import strings pretty.
From Verif.Model Require Import PageLife.
From Verif.Proof Require Import PageLifeProofs.
Local Open Scope string_scope.
Local Open Scope list_scope.
Local Open Scope Z_scope.

(** ** C18
    Full statement: the file of a page exists as long as a live object refers to it.  False for
    an object which is unpickled after the last other object has gone. *)
Definition owner_of (p : N) : list string := ["pid-" +:+ pretty p].
Theorem C18_unpickle_refuted :
  ∃ s f, run id owner_of true [New 7%N ["tmp"; "pid-7"]; Drop 0; Attach 7%N ["tmp"; "pid-7"; "pages"; "7-1.npy"]] (start []) = Some s ∧
    (7%N, f) ∈ objs s ∧ owns owner_of 7%N f = true ∧ f ∉ files s.
Proof.
  eexists _, _. split; [by vm_compute|]. split; [cbn; by left|]. split; [by vm_compute|]. cbn. apply not_elem_of_nil.
Qed.
(** False as well if two processes have the same Config.pid, as a forked child and its parent
    would: the child drops its copy and the parent's page loses its file. *)
Theorem C18_fork_refuted :
  ∃ s f, run (λ _, 7%N) (λ _ : bool, ["pid-7"]) true
      [New false ["tmp"; "pid-7"]; Attach true ["tmp"; "pid-7"; "pages"; "7-1.npy"]; Drop 1] (start []) = Some s ∧
    (false, f) ∈ objs s ∧ f ∉ files s.
Proof. eexists _, _. split; [by vm_compute|]. split; [cbn; by left|]. cbn. apply not_elem_of_nil. Qed.

(** Proved, for a file [f] which at most one of any number of processes owns, and histories in
    which every unpickled page with this file finds it: the file exists as long as there is a
    live object in the process which owns it. *)
Theorem C18_live_partial {P} `{EqDecision P} (pid : P → N) (cfg : P → list string) os fs s f :
  (∀ p q, owns cfg p f = true → owns cfg q f = true → p = q) →
  attach_found pid cfg f os (start fs) → run pid cfg true os (start fs) = Some s →
  ∀ p, (p, f) ∈ objs s → owns cfg p f = true → f ∈ files s.
Proof. exact (live_spec pid cfg os fs s f). Qed.

(** For a single process the file exists exactly as long as there is a live object. *)
Theorem C18_lifetime_partial {P} `{EqDecision P} (pid : P → N) (cfg : P → list string) p os fs s :
  (∀ q, q = p) → run pid cfg true os (start fs) = Some s →
  ∀ f, attach_found pid cfg f os (start fs) → f ∉ fs → owns cfg p f = true → (f ∈ files s ↔ (p, f) ∈ objs s).
Proof. exact (lifetime_spec pid cfg p os fs s). Qed.

(** Without any assumption on the history or the processes: dropping an object changes nothing
    about other files, removes its own file if it was the last object of the owning process, and
    does not touch any file otherwise. *)
Theorem C18_drop {P} `{EqDecision P} (pid : P → N) (cfg : P → list string) os fs s i p f s' :
  run pid cfg true os (start fs) = Some s → objs s !! i = Some (p, f) →
  step pid cfg true (Drop i) s = Some s' →
  objs s' = delete i (objs s) ∧
  (∀ g, g ≠ f → g ∈ files s' ↔ g ∈ files s) ∧
  (owns cfg p f = false ∨ (p, f) ∈ objs s' → files s' = files s) ∧
  (owns cfg p f = true → (p, f) ∉ objs s' → f ∉ files s').
Proof. exact (drop_spec pid cfg os fs s i p f s'). Qed.

(** Creating a page always succeeds and never takes the name of an existing file. *)
Theorem C18_new {P} `{EqDecision P} (pid : P → N) (cfg : P → list string) autocleanup s p base : ∃ s' f,
  step pid cfg autocleanup (New p base) s = Some s' ∧ f ∉ files s ∧
  files s' = f :: files s ∧ objs s' = objs s ++ [(p, f)].
Proof. exact (new_spec pid cfg autocleanup s p base). Qed.

(** No process creates a page with a name that it or another process created before, even after
    the deletion of the file, in whatever directories. *)
Theorem C18_names {P} `{EqDecision P} (pid : P → N) (cfg : P → list string) ac os s s1 s2 s3 p base q base' f g :
  (∀ p q, pid p = pid q → p = q) →
  step pid cfg ac (New p base) s = Some s1 → objs s1 = objs s ++ [(p, f)] →
  run pid cfg ac os s1 = Some s2 →
  step pid cfg ac (New q base') s2 = Some s3 → objs s3 = objs s2 ++ [(q, g)] → f ≠ g.
Proof. exact (fresh_names pid cfg ac os s s1 s2 s3 p base q base' f g). Qed.
(** A process owns the files below its directory: every part of Config.pid is a part of the path. *)
Theorem C18_owns {P} (cfg : P → list string) (p : P) (f : path) :
  owns cfg p f = true ↔ ∀ x, x ∈ cfg p → x ∈ f.
Proof. exact (owns_spec cfg p f). Qed.

(** a page made in a worker (process 8) in the directory of process 7, handed to it, copied, and
    dropped one after the other; the file 7-1.npy was there before *)
Definition hist : list (op N) :=
  [New 7%N ["tmp"; "pid-7"]; New 8%N ["tmp"; "pid-7"]; Attach 7%N ["tmp"; "pid-7"; "pages"; "8-1.npy"]; Drop 1;
   Attach 7%N ["tmp"; "pid-7"; "pages"; "8-1.npy"]; Drop 1].
Definition old_file : path := ["tmp"; "pid-7"; "pages"; "7-1.npy"].
Definition worker_file : path := ["tmp"; "pid-7"; "pages"; "8-1.npy"].
Example C18_example :
  attach_found id owner_of worker_file hist (start [old_file]) ∧
  (∀ p q, owns owner_of p worker_file = true → owns owner_of q worker_file = true → p = q) ∧
  (files <$> run id owner_of true hist (start [old_file])) =
    Some [worker_file; ["tmp"; "pid-7"; "pages"; "7-2.npy"]; old_file] ∧
  (files <$> run id owner_of true (hist ++ [Drop 1; Drop 0]) (start [old_file])) = Some [old_file].
Proof.
  split; [|split; [|split; by vm_compute]].
  - vm_compute. split_and!; try done; intros _; repeat first [by left | right].
  - assert (H : ∀ p, owns owner_of p worker_file = true → p = 7%N).
    { intros p Hp. unfold owns, owner_of in Hp. cbn [forallb] in Hp. rewrite andb_true_r in Hp.
      apply bool_decide_eq_true in Hp. unfold worker_file in Hp.
      repeat (apply elem_of_cons in Hp as [Hp|Hp]; [try discriminate Hp|]); [|by apply elem_of_nil in Hp].
      injection Hp as Hp. by apply (inj pretty p 7%N). }
    intros p q ->%H ->%H. done.
Qed.
Print Assumptions C18_unpickle_refuted.
Print Assumptions C18_fork_refuted.
Print Assumptions C18_live_partial.
Print Assumptions C18_lifetime_partial.
Print Assumptions C18_drop.
Print Assumptions C18_new.
Print Assumptions C18_names.
Print Assumptions C18_owns.

(** ** C19
    [arun proc l (astart fs)]: any interleaving [l] of the steps "take a number", "look for the
    file", "write" of threads [t] of processes with the ids [proc t], of deletions, and of
    restarts of processes with a used id; all in one directory, [fs] are the files at the start.
    [apc s t = Named n]: thread [t] is about to write its page [file_of proc t n]. *)
Theorem C19_no_overwrite {T} `{EqDecision T} (proc : T → N) fs l s t n :
  arun proc l (astart fs) = Some s → apc s t = Named n → file_of proc t n ∉ afiles s.
Proof. exact (no_overwrite proc fs l s t n). Qed.
Theorem C19_no_clash {T} `{EqDecision T} (proc : T → N) fs l s t t' n n' :
  arun proc l (astart fs) = Some s → apc s t = Named n → apc s t' = Named n' → t ≠ t' →
  file_of proc t n ≠ file_of proc t' n'.
Proof. exact (no_clash proc fs l s t t' n n'). Qed.
(** As long as no process id is used twice no name is ever created twice, even after deletions. *)
Theorem C19_created_once {T} `{EqDecision T} (proc : T → N) fs l :
  existsb restarts l = false → NoDup (created proc l (astart fs)).
Proof. exact (created_once proc fs l). Qed.
(** The pages of a text import (named by a number only) cannot clash with them either. *)
Theorem C19_import_names (k pid n : N) : (pretty k +:+ ".npy" ≠ page_id pid n +:+ ".npy")%string.
Proof. exact (import_name_differs k pid n). Qed.

(** two threads of process 7 (0, 2) and one of process 8 (1); the file 7-1.npy is left over *)
Definition procs (t : nat) : N := if Nat.even t then 7%N else 8%N.
Definition interleaving : list (act nat) :=
  [Pick 0; Pick 1; Pick 2; Check 2; Check 0; Write 2; Check 1; Pick 0; Check 0; Write 1; Unlink "7-2.npy"; Write 0;
   Pick 2; Check 2]%nat.
Example C19_example :
  created procs interleaving (astart ["7-1.npy"]) = ["7-2.npy"; "8-1.npy"; "7-3.npy"] ∧
  ∃ s, arun procs interleaving (astart ["7-1.npy"]) = Some s ∧ apc s 2%nat = Named 4%N.
Proof. split; [by vm_compute|]. eexists. split; [by vm_compute|]. by vm_compute. Qed.
Print Assumptions C19_no_overwrite.
Print Assumptions C19_no_clash.
Print Assumptions C19_created_once.
Print Assumptions C19_import_names.
