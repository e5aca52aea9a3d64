(** tablite/base.py 67-190: page objects and their files.

    A path is the list of its parts.  Python's garbage collector calls [__del__] once for every
    object; when that happens is a step of the history ([Drop]).  Writing a file and checking
    for it are single steps. *)
From stdpp Require Import strings pretty functions.
From Verif.Model Require Export Dict.
Local Open Scope Z_scope.

Definition path : Type := list string.

(** line 99: [f"{os.getpid()}-{next(cls.ids)}"] *)
Definition page_id (pid n : N) : string := (pretty pid +:+ "-" +:+ pretty n)%string.
(** lines 73, 100: [path / "pages" / f"{id}.npy"] *)
Definition page_path (base : path) (id : string) : path := base ++ ["pages"; (id +:+ ".npy")%string].

(** ** page objects of some processes (C18)
    [P]: the processes, [pid p]: os.getpid(), [cfg p]: the parts of Config.pid. *)
Section Refcount.
  Context {P : Type} `{EqDecision P} (pid : P → N) (cfg : P → list string) (autocleanup : bool).

  Record state := MkState {
    files : list path;                      (* the files on disk *)
    ids : P → N;                            (* SimplePage.ids, line 68 *)
    refcounts : P → list (path * Z);        (* SimplePage.refcounts, line 69 *)
    objs : list (P * path);                 (* the live page objects and their paths *)
  }.

  (** lines 121-124 [owns] *)
  Definition owns (p : P) (f : path) : bool := forallb (λ x, bool_decide (x ∈ f)) (cfg p).

  (** lines 79-82 [_incr_refcount] *)
  Definition incr_refcount (p : P) (f : path) (s : state) : state :=
    if owns p f
    then MkState (files s) (ids s) (<[p := dset (refcounts s p) f (dget_or (refcounts s p) f 0 + 1)]> (refcounts s)) (objs s)
    else s.

  (** lines 94-106 [next_id]: the new id and the new counter.  [fuel] bounds the loop. *)
  Fixpoint next_id (fuel : nat) (fs : list path) (pid : N) (base : path) (n : N) : option (string * N) :=
    let id := page_id pid n in
    if decide (page_path base id ∈ fs)
    then match fuel with O => None | S fuel => next_id fuel fs pid base (n + 1) end
    else Some (id, (n + 1)%N).

  Inductive op :=
  | New (p : P) (base : path)       (* Page(path=base, array) in process p *)
  | Attach (p : P) (f : path)       (* unpickling or copying an object, SimplePage(...) *)
  | Drop (i : nat).                 (* the i-th live object goes away *)

  (** lines 126-149 [__del__] of an object with path [f] in process [p] *)
  Definition page_del (p : P) (f : path) (s : state) : state :=
    if negb (owns p f) then s else
    let refcount := Z.max (dget_or (refcounts s p) f 0 - 1) 0 in
    if 0 <? refcount
    then MkState (files s) (ids s) (<[p := dset (refcounts s p) f refcount]> (refcounts s)) (objs s)
    else MkState (if autocleanup then filter (λ g, g ≠ f) (files s) else files s) (ids s)
           (<[p := ddel (dset (refcounts s p) f refcount) f]> (refcounts s)) (objs s).

  Definition step (o : op) (s : state) : option state :=
    match o with
    | New p base =>
        match next_id (length (files s)) (files s) (pid p) base (ids s p) with
        | None => None
        | Some (id, n) =>
            let f := page_path base id in
            (* 186-188: super().__init__, then np.save *)
            let s := incr_refcount p f (MkState (files s) (<[p := n]> (ids s)) (refcounts s) (objs s)) in
            Some (MkState (f :: files s) (ids s) (refcounts s) (objs s ++ [(p, f)]))
        end
    | Attach p f =>
        (* 71-77, 84-92 *)
        let s := incr_refcount p f s in
        Some (MkState (files s) (ids s) (refcounts s) (objs s ++ [(p, f)]))
    | Drop i =>
        match objs s !! i with
        | None => None
        | Some (p, f) => Some (page_del p f (MkState (files s) (ids s) (refcounts s) (delete i (objs s))))
        end
    end.

  (** a history; None: an operation on an object which does not exist *)
  Fixpoint run (os : list op) (s : state) : option state :=
    match os with
    | [] => Some s
    | o :: os => match step o s with Some s => run os s | None => None end
    end.

  (** line 68-69: new processes, any files *)
  Definition start (fs : list path) : state := MkState fs (λ _, 1%N) (λ _, []) [].
End Refcount.
Arguments state : clear implicits.
Arguments op : clear implicits.

(** ** naming pages, step by step (C19)
    Any number of threads [t] of processes [proc t]; all processes use one directory. *)
Section Alloc.
  Context {T : Type} `{EqDecision T} (proc : T → N).

  Inductive pc :=
  | Idle
  | Picked (n : N)     (* line 99: [next(cls.ids)] has returned [n] *)
  | Named (n : N).     (* line 102: [not _path.exists()] was true *)
  Record astate := MkA {
    afiles : list string;       (* names of the files in the directory *)
    aids : N → N;               (* the counter of every process *)
    apc : T → pc;
  }.
  Definition file_of (t : T) (n : N) : string := (page_id (proc t) n +:+ ".npy")%string.

  Inductive act :=
  | Pick (t : T)                (* [next(cls.ids)], atomic in CPython *)
  | Check (t : T)               (* [_path.exists()] *)
  | Write (t : T)               (* np.save *)
  | Unlink (f : string)         (* some clean-up deletes a file *)
  | Restart (pid : N).          (* a process ends and a new one gets its pid *)

  Definition astep (a : act) (s : astate) : option astate :=
    match a with
    | Pick t =>
        match apc s t with
        | Idle => let n := aids s (proc t) in
                  Some (MkA (afiles s) (<[proc t := (n + 1)%N]> (aids s)) (<[t := Picked n]> (apc s)))
        | _ => None
        end
    | Check t =>
        match apc s t with
        | Picked n => Some (MkA (afiles s) (aids s)
                             (<[t := if decide (file_of t n ∈ afiles s) then Idle else Named n]> (apc s)))
        | _ => None
        end
    | Write t =>
        match apc s t with
        | Named n => Some (MkA (file_of t n :: afiles s) (aids s) (<[t := Idle]> (apc s)))
        | _ => None
        end
    | Unlink f => Some (MkA (filter (λ g, g ≠ f) (afiles s)) (aids s) (apc s))
    | Restart pid => Some (MkA (afiles s) (<[pid := 1%N]> (aids s))
                             (λ t, if decide (proc t = pid) then Idle else apc s t))
    end.
  Fixpoint arun (as_ : list act) (s : astate) : option astate :=
    match as_ with
    | [] => Some s
    | a :: as_ => match astep a s with Some s => arun as_ s | None => None end
    end.
  Definition astart (fs : list string) : astate := MkA fs (λ _, 1%N) (λ _, Idle).

  (** the name a [Write] creates *)
  Definition written (s : astate) (a : act) : option string :=
    match a with
    | Write t => match apc s t with Named n => Some (file_of t n) | _ => None end
    | _ => None
    end.
  (** all names created by a history, in order *)
  Fixpoint created (as_ : list act) (s : astate) : list string :=
    match as_ with
    | [] => []
    | a :: as_ =>
        match astep a s with
        | None => []
        | Some s' => match written s a with
                     | Some f => f :: created as_ s'
                     | None => created as_ s'
                     end
        end
    end.
End Alloc.
Arguments astate : clear implicits.
Arguments act : clear implicits.
