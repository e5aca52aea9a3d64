(** nimlite/funcs/text_reader/file_tracker.nim: the page files of an import, no more than [MAX_FILES_OPEN] of them
    open at once.  Lines are of file_tracker.nim.

    Simplifications: opening, writing and closing a file do not fail; the singly linked list of Nim's library is a
    queue; a process writes these files alone; the message of 31 is left out.  [limit] is [MAX_FILES_OPEN], 4-6: 4096 or
    the number in the environment, whatever its sign. *)
From Verif.Spec Require Export Written.
Local Open Scope Z_scope.

Section tracker.
  Context {P B : Type} `{EqDecision P}.
  Notation op := (file_op B).

  (** what is on the disk *)
  Definition files := P → option (list B).
  Definition set_file (f : files) (p : P) (c : list B) : files := λ q, if decide (q = p) then Some c else f q.
  (** [open(p, fmWrite)] creates or empties the file *)
  Definition create (f : files) (p : P) : files := set_file f p [].

  (** a [File]: [h_pos] is the place of the next byte of a file opened to write, None for one opened to append;
      [h_buf] what the C library has not yet written *)
  Record handle := Handle { h_path : P; h_pos : option nat; h_buf : list B }.

  (** [flushFile] *)
  Definition flush (h : handle) (f : files) : handle * files :=
    let c := default [] (f (h_path h)) in
    match h_pos h with
    | None => (Handle (h_path h) None [], set_file f (h_path h) (c ++ h_buf h))
    | Some n =>
        (Handle (h_path h) (Some (n + length (h_buf h))%nat) [],
         set_file f (h_path h) (take n c ++ h_buf h ++ drop (n + length (h_buf h)) c))
    end.
  (** writing to a [File] *)
  Definition put_bytes (bytes : list B) (h : handle) : handle := Handle (h_path h) (h_pos h) (h_buf h ++ bytes).

  (** 8-21 *)
  Inductive tracker :=
  | Simple (handles : list handle)
  | Deferred (pages : list P) (handles : list (option handle)) (pages_open : Z) (order : list nat).

  (** the disk and the tracker *)
  Record world := World { disk : files; state : tracker }.

  (** 23-37 *)
  Definition new_tracker (limit : Z) (pages : list P) (f : files) : world :=
    let f := fold_left create pages f in
    if zlen pages <=? limit then World f (Simple (map (λ p, Handle p (Some 0%nat) []) pages))
    else World f (Deferred pages (replicate (length pages) None) 0 []).

  (** 39-50 *)
  Definition get_handle (pages : list P) (hs : list (option handle)) (n : Z) (order : list nat) (i : nat) : res tracker :=
    match hs !! i with
    | None => Err IndexError
    | Some (Some _) => Ok (Deferred pages hs n order)
    | Some None =>
        match pages !! i with
        | None => Err IndexError
        | Some p => Ok (Deferred pages (<[i := Some (Handle p None [])]> hs) (n + 1) (order ++ [i]))
        end
    end.

  (** 52-59 *)
  Definition close_handle (hs : list (option handle)) (n : Z) (i : nat) (f : files) : list (option handle) * Z * files :=
    match hs !! i with
    | Some (Some h) => (<[i := None]> hs, n - 1, (flush h f).2)
    | _ => (hs, n, f)
    end.

  (** 61-70: the file [i] is open afterwards; the head of an empty list is nil *)
  Definition access (limit : Z) (w : world) (i : nat) : res world :=
    match state w with
    | Simple hs => match hs !! i with Some _ => Ok w | None => Err IndexError end
    | Deferred pages hs n order =>
        if n <? limit then res_map (World (disk w)) (get_handle pages hs n order i)
        else
          match order with
          | [] => Err OtherError
          | j :: order =>
              let '(hs, n, f) := close_handle hs n j (disk w) in
              res_map (World f) (get_handle pages hs n order i)
          end
    end.

  (** the handle of an open file is changed *)
  Definition alter_handle (i : nat) (g : handle → handle) (t : tracker) : tracker :=
    match t with
    | Simple hs => Simple (alter g i hs)
    | Deferred pages hs n order => Deferred pages (alter (fmap g) i hs) n order
    end.
  Definition handle_of (t : tracker) (i : nat) : option handle :=
    match t with Simple hs => hs !! i | Deferred _ hs _ _ => mjoin (hs !! i) end.

  (** paging.nim 98-104, 108-213, 248-351, 361-364: the file is looked up, then bytes are written to it *)
  Definition do_op (limit : Z) (w : world) (o : op) : res world :=
    match o with
    | Put i bytes =>
        res_map (λ w, World (disk w) (alter_handle i (put_bytes bytes) (state w))) (access limit w i)
    | Spill i =>
        match handle_of (state w) i with
        | Some h => let '(h, f) := flush h (disk w) in Ok (World f (alter_handle i (λ _, h) (state w)))
        | None => Ok w
        end
    end.
  Fixpoint do_ops (limit : Z) (w : world) (ops : list op) : res world :=
    match ops with [] => Ok w | o :: ops => res_bind (do_op limit w o) (λ w, do_ops limit w ops) end.

  (** 72-74 *)
  Definition close (w : world) : files :=
    match state w with
    | Simple hs => fold_left (λ f h, (flush h f).2) hs (disk w)
    | Deferred _ hs _ _ => fold_left (λ f o, match o with Some h => (flush h f).2 | None => f end) hs (disk w)
    end.

  (** the whole of an import: text_reader.nim 63-105 *)
  Definition write_files (limit : Z) (pages : list P) (ops : list op) (f : files) : res files :=
    res_map close (do_ops limit (new_tracker limit pages f) ops).

  (** how many files are open *)
  Definition open_files (t : tracker) : Z :=
    match t with Simple hs => zlen hs | Deferred _ hs _ _ => zlen (filter (λ o, is_Some o) hs) end.
End tracker.
Arguments files : clear implicits.
Arguments handle : clear implicits.
Arguments tracker : clear implicits.
Arguments world : clear implicits.
