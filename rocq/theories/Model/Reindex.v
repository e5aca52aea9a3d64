(** tablite/sortation.py 72-107, mp_utils.py 46-80, core.py 375-392: rows picked by position. *)
From stdpp Require Import strings.
From Verif.Model Require Export Joins.
Local Open Scope Z_scope.

(** config.py 64-67: the values of [Config.MULTIPROCESSING_MODE] *)
Inductive mp_mode := ModeAuto | ModeFalse | ModeForce.

(** mp_utils.py 46-67 [is_mp]; [limit] is [Config.SINGLE_PROCESSING_LIMIT], [cpus] what psutil counts.
    [psutil.cpu_count] may be None, for which [max] raises TypeError: not modelled. *)
Definition is_mp (mode : mp_mode) (limit cpus fields : Z) : bool :=
  match mode with
  | ModeForce => true
  | ModeFalse => false
  | ModeAuto => if fields <? limit then false else if Z.max cpus 1 <? 2 then false else true
  end.

(** mp_utils.py 69-80 [select_processing_method] *)
Definition select_method {B} (mode : mp_mode) (limit cpus fields : Z) (sp mp : B) : B :=
  if is_mp mode limit cpus fields then mp else sp.

(** Python's [max] and [min]: nothing for an empty sequence *)
Definition seq_max (l : list Z) : option Z := match l with [] => None | x :: l => Some (fold_left Z.max l x) end.
Definition seq_min (l : list Z) : option Z := match l with [] => None | x :: l => Some (fold_left Z.min l x) end.

Section Reindex.
  Context {A T : Type} `{EqDecision T} (ty : A → T) (none : A) (ps : Z) (mode : mp_mode) (limit cpus : Z).
  Notation tbl := (table string A T).

  (** sortation.py 101-102 *)
  Definition sp_reindex (t : tbl) (index : list Z) : res tbl := reindex ty none ps t index.
  (** sortation.py 105-107; what follows line 107 is never reached *)
  Definition mp_reindex (t : tbl) (index : list Z) : res tbl := sp_reindex t index.

  (** sortation.py 72-98 [reindex].  The index is a list or an array of ints; other types, which raise TypeError, are not
      modelled. *)
  Definition checked_reindex (t : tbl) (index : list Z) : res tbl :=
    match seq_max index, seq_min index with
    | Some hi, Some lo =>
        if tbl_len t <=? hi then Err IndexError
        else if lo <? - tbl_len t then Err IndexError
        else select_method mode limit cpus (tbl_len t * zlen t) (reindex ty none ps) mp_reindex t index
    | _, _ => Err ValueError
    end.

  (** core.py 375-392 [Table.reindex]: no check *)
  Definition table_reindex (t : tbl) (index : list Z) : res tbl := reindex ty none ps t index.
End Reindex.
