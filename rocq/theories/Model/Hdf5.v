(** tablite/export_utils.py [to_hdf5] (63-105) and tablite/import_utils.py [from_hdf5] (72-109), with [DataTypes.guess] of Model/PyInfer.v.

    A column is given by its pages, each with the type of its array: [Some KBool], [Some KInt] or [Some KFloat] for the arrays that
    HDF5 can hold, [None] for texts and objects.  Values are those of [cell] (no timedeltas, bytes or numpy dates).
    Simplifications: h5py refuses arrays of texts and objects with TypeError (103: their texts are stored), stores lists of texts as
    they are and reads them as UTF-8 bytes; texts are lists of code points; names are strings of bytes; names are paths: "/"
    separates groups, leading and doubled ones are ignored ("." is taken for a name); the keys of a file are in the order of their
    bytes; exceptions of h5py other than TypeError are [OtherError]. *)
From Coq Require Import String Ascii.
From Verif.Spec Require Export Hdf5.
From Verif.Model Require Export PyInfer Export.
Local Open Scope list_scope.
Local Open Scope Z_scope.

Definition pages : Type := list (option kind * list cell).
Inductive dataset := HArray (vs : list cell) | HTexts (ss : list (list Z)).

Section Hdf5.
  Context (lib : py_lib).

  (** [str(v)]: a datetime has a blank before its time *)
  Definition py_str (v : cell) : list Z :=
    match v with
    | CNone => bytes_of "None"
    | CDateTime d us => date_isoformat d ++ [32] ++ time_isoformat us
    | _ => txt (float_show lib) v
    end.

  (** [col[:]]: base.py 356-386, datatypes.py 835-851: the type of the array, if HDF5 has it; arrays of several types are made objects *)
  Definition array_type (c : pages) : option kind :=
    match c with
    | [] => Some KFloat
    | (k, _) :: c => if forallb (λ p, bool_decide (p.1 = k)) c then k else None
    end.

  (** export_utils.py 100-103 *)
  Definition write_column (c : pages) : dataset :=
    let values := concat c.*2 in
    match array_type c with Some _ => HArray values | None => HTexts (map py_str values) end.

  (** [np.array(values)] (import_utils.py 107): objects, texts if there is one, floats if there is one, ints if there is one, bools *)
  Definition is_object (v : cell) : bool := match v with CNone | CDate _ | CTime _ | CDateTime _ _ => true | _ => false end.
  Definition is_str (v : cell) : bool := match v with CStr _ => true | _ => false end.
  Definition is_float (v : cell) : bool := match v with CFloat _ => true | _ => false end.
  Definition is_int (v : cell) : bool := match v with CInt _ => true | _ => false end.
  Definition to_float (v : cell) : cell :=
    match v with
    | CBool b => match float_of_int lib (if b then 1 else 0) with Ok x => CFloat x | Err _ => v end
    | CInt n => match float_of_int lib n with Ok x => CFloat x | Err _ => v end
    | _ => v
    end.
  Definition to_int (v : cell) : cell := match v with CBool b => CInt (if b then 1 else 0) | _ => v end.
  Definition np_array (vs : list cell) : list cell :=
    if existsb is_object vs then vs
    else if existsb is_str vs then map (λ v, CStr (py_str v)) vs
    else if existsb is_float vs then map to_float vs
    else if existsb is_int vs then map to_int vs
    else vs.

  (** import_utils.py 105-108 *)
  Definition read_column (d : dataset) : res (list cell) :=
    match d with
    | HArray vs => Ok vs
    | HTexts ss => res_map np_array (guess lib (map CStr ss))
    end.

  (** the groups and the name in a path *)
  Fixpoint path_parts (s : string) (part : string) : list string :=
    match s with
    | EmptyString => if bool_decide (part = EmptyString) then [] else [part]
    | String c s =>
        if Ascii.eqb c "/"%char then (if bool_decide (part = EmptyString) then [] else [part]) ++ path_parts s EmptyString
        else path_parts s (part ++ String c EmptyString)
    end.
  Definition parts (s : string) : list string := path_parts s EmptyString.

  Fixpoint starts (p q : list string) : bool :=
    match p, q with
    | [], _ => true
    | x :: p, y :: q => bool_decide (x = y) && starts p q
    | _, _ => false
    end.

  (** export_utils.py 97-104: the datasets of the file with their paths *)
  Fixpoint to_hdf5 (file : list (list string * dataset)) (t : list (string * pages)) : res (list (list string * dataset)) :=
    match t with
    | [] => Ok file
    | (name, c) :: t =>
        let path := parts name in
        if bool_decide (path = []) || existsb (λ e : list string * dataset, starts e.1 path || starts path e.1) file then Err OtherError
        else to_hdf5 (file ++ [(path, write_column c)]) t
    end.

  (** [h5.keys()] *)
  Fixpoint insert_key (k : string) (l : list string) : list string :=
    match l with
    | [] => [k]
    | x :: l' => if bool_decide (k = x) then l else if String.leb k x then k :: l else x :: insert_key k l'
    end.
  Definition keys (file : list (list string * dataset)) : list string :=
    foldr (λ e l, match e.1 with k :: _ => insert_key k l | [] => l end) [] file.

  (** [h5[name]]: a dataset or a group ([None]) *)
  Definition entry (file : list (list string * dataset)) (name : string) : option dataset :=
    snd <$> head (filter (λ e : list string * dataset, e.1 = [name]) file).

  (** import_utils.py 101-109: a group cannot be sliced *)
  Fixpoint read_keys (file : list (list string * dataset)) (names : list string) : res (list (string * list cell)) :=
    match names with
    | [] => Ok []
    | name :: names =>
        match entry file name with
        | None => Err TypeError
        | Some d => res_bind (read_column d) (λ vs, res_map (cons (name, vs)) (read_keys file names))
        end
    end.
  Definition from_hdf5 (file : list (list string * dataset)) : res (list (string * list cell)) := read_keys file (keys file).

  Definition hdf5_again (t : list (string * pages)) : res (list (string * list cell)) := res_bind (to_hdf5 [] t) from_hdf5.
End Hdf5.
