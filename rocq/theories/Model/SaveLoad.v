(** tablite/base.py 1349-1454: [save] and [load].

    A page has a directory, a file name and its values.  YAML gives back the names it was given;
    [np.load] gives back the values of [np.save].  The progress bar and [update_access_time] are
    left out. *)
From stdpp Require Import strings.
From Verif.Model Require Export Table.
Local Open Scope Z_scope.

Section SaveLoad.
  Context {N A T : Type} `{EqDecision N, EqDecision T} (ty : A → T).

  Record fpage := MkFpage { fdir : list string; fname : string; fpg : page A T }.
  Notation ftable := (list (N * list fpage)).
  (** the table without the files *)
  Definition plain (t : ftable) : table N A T := map (λ c, (c.1, map fpg c.2)) t.

  (** a .tpz file: table.yml and the other entries in the order in which they were written *)
  Record archive := MkArchive { yml : list (N * list string); entries : list (string * list A) }.

  (** [set(col.pages)] lists every page object once in some order *)
  Context (set_of : list fpage → list fpage).

  (** 1387-1396: table.yml has the last part of the paths *)
  Definition save_yml (t : ftable) : list (N * list string) := map (λ c, (c.1, map fname c.2)) t.
  (** 1405-1412 *)
  Definition save_entries (t : ftable) : list (string * list A) :=
    concat (map (λ c, map (λ p, (fname p, pdata (fpg p))) (set_of c.2)) t).
  (** 1384-1418: the archive, which is complete when the last lines run, and how the call ends:
      [_fields // _page_counter] *)
  Definition save (t : ftable) : archive * res () :=
    (MkArchive (save_yml t) (save_entries t),
     if sum_list (map (λ c, length c.2) t) =? 0 then Err ZeroDivisionError else Ok ())%nat.

  (** [f.read(page)]: zipfile finds the last entry of that name *)
  Definition read_entry (es : list (string * list A)) (n : string) : option (list A) :=
    list.last (omap (λ e, if decide (e.1 = n) then Some e.2 else None) es).

  (** 1443-1449 *)
  Fixpoint load_column (ps : Z) (es : list (string * list A)) (pages : list string) (column : column A T)
    : res (Column.column A T) :=
    match pages with
    | [] => Ok column
    | page :: pages =>
        match read_entry es page with
        | None => Err KeyError
        | Some data => load_column ps es pages (col_extend ty ps column data)
        end
    end.
  (** 1441-1452; [ps]: Config.PAGE_SIZE when loading *)
  Fixpoint load_columns (ps : Z) (es : list (string * list A)) (cols : list (N * list string)) (t : table N A T)
    : res (table N A T) :=
    match cols with
    | [] => Ok t
    | (name, pages) :: cols =>
        res_bind (load_column ps es pages []) (λ column, load_columns ps es cols (dset t name column))
    end.
  Definition load (ps : Z) (a : archive) : res (table N A T) := load_columns ps (entries a) (yml a) [].
End SaveLoad.
Arguments fpage : clear implicits.
Arguments archive : clear implicits.
