(** tablite/config.py [Config.reset] (71-75), [_default_values] (92) and the flags of the environment (39-40).

    Lists are objects with an address: the list of the [i]-th statement of the class is at address [i], and lists assigned later are
    new objects, at addresses that follow.  Simplification: no setting is assigned the list of another one. *)
From Coq Require Import String Ascii.
From stdpp Require Import strings.
From Verif.Spec Require Export Settings.
Local Open Scope string_scope.
Local Open Scope list_scope.

Section settings.
  Context {A : Type}.

  (** What an attribute of the class holds *)
  Inductive slot := Atom (a : A) | Ref (address : nat).
  (** The attributes of the class and the lists *)
  Record config := Config { attrs : string → option slot; heap : list (list A) }.

  Definition setattr (d : string → option slot) (k : string) (s : slot) : string → option slot :=
    λ k', if decide (k' = k) then Some s else d k'.

  (** 10-69: a statement [k = v] of the class; whether [v] is callable *)
  Record statement := Stmt { st_name : string; st_value : setting A; st_callable : bool }.

  Definition slot_of (i : nat) (v : setting A) : slot := match v with One a => Atom a | Items _ => Ref i end.
  Definition object_of (v : setting A) : list A := match v with One _ => [] | Items l => l end.
  Definition class_dict (body : list statement) : list (string * slot) :=
    imap (λ i st, (st_name st, slot_of i (st_value st))) body.
  Definition set_all (kvs : list (string * slot)) (d : string → option slot) : string → option slot :=
    fold_left (λ d kv, setattr d kv.1 kv.2) kvs d.

  (** The class after its definition *)
  Definition define (body : list statement) : config :=
    Config (set_all (class_dict body) (λ _, None)) (map (λ st, object_of (st_value st)) body).

  (** 92 *)
  Definition default_values (body : list statement) : list (string * slot) :=
    (filter (λ e : string * slot * bool, negb (String.prefix "__" e.1.1) || e.2 = true)
       (zip (class_dict body) (map st_callable body))).*1.

  (** 71-75 *)
  Definition reset (body : list statement) (c : config) : config := Config (set_all (default_values body) (attrs c)) (heap c).

  (** [Config.k = v], [del Config.k], [Config.k.append(x)]; an exception leaves things as they are *)
  Definition do_op (body : list statement) (c : config) (op : setting_op A) : config :=
    match op with
    | Assign k v => Config (setattr (attrs c) k (slot_of (length (heap c)) v)) (heap c ++ [object_of v])
    | Remove k => Config (λ k', if decide (k' = k) then None else attrs c k') (heap c)
    | Append k x => match attrs c k with
                    | Some (Ref i) => Config (attrs c) (alter (λ l, l ++ [x]) i (heap c))
                    | _ => c
                    end
    | Reset => reset body c
    end.
  Definition run (body : list statement) (ops : list (setting_op A)) : config := fold_left (do_op body) ops (define body).

  (** [Config.k] *)
  Definition getattr (c : config) (k : string) : res (setting A) :=
    match attrs c k with
    | Some (Atom a) => Ok (One a)
    | Some (Ref i) => match heap c !! i with Some l => Ok (Items l) | None => Err OtherError end
    | None => Err AttributeError
    end.
End settings.
Global Arguments slot : clear implicits.
Global Arguments config : clear implicits.
Global Arguments statement : clear implicits.

(** [str.lower] of an ASCII text *)
Definition lower_char (c : ascii) : ascii :=
  let n := nat_of_ascii c in if (65 <=? n)%nat && (n <=? 90)%nat then ascii_of_nat (n + 32) else c.
Fixpoint lower (s : string) : string := match s with EmptyString => EmptyString | String c s => String (lower_char c) (lower s) end.
(** 39-40: [os.environ.get(name, default).lower() in [...]] *)
Definition env_flag (environ : string → option string) (name dflt : string) : bool :=
  bool_decide (lower (default dflt (environ name)) ∈ ["1"; "t"; "true"; "y"; "yes"]).
Definition use_nimporter (environ : string → option string) : bool := env_flag environ "USE_NIMPORTER" "false".
Definition allow_csv_reader_fallthrough (environ : string → option string) : bool :=
  env_flag environ "ALLOW_CSV_READER_FALLTHROUGH" "true".

(** config.py 10-90: the statements of the class; values that depend on the machine are parameters.  [classmethod] objects are no
    functions that can be called, nor are texts. *)
Inductive conf_value := Text (s : string) | Number (n : Z) | Flag (b : bool) | Method (name : string).
Definition config_body (environ : string → option string) (workdir pid : string) (vpus : Z) : list (statement conf_value) :=
  [Stmt "__module__" (One (Text "tablite.config")) false;
   Stmt "__doc__" (One (Text "Config class for Tablite Tables.")) false;
   Stmt "USE_NIMPORTER" (One (Flag (use_nimporter environ))) false;
   Stmt "ALLOW_CSV_READER_FALLTHROUGH" (One (Flag (allow_csv_reader_fallthrough environ))) false;
   Stmt "NIM_SUPPORTED_CONV_TYPES" (Items [Text "Windows-1252"; Text "ISO-8859-1"]) false;
   Stmt "workdir" (One (Text workdir)) false;
   Stmt "pid" (One (Text pid)) false;
   Stmt "PAGE_SIZE" (One (Number 1000000)) false;
   Stmt "ENCODING" (One (Text "UTF-8")) false;
   Stmt "DISK_LIMIT" (One (Number 10000000000)) false;
   Stmt "SINGLE_PROCESSING_LIMIT" (One (Number 1000000)) false;
   Stmt "vpus" (One (Number vpus)) false;
   Stmt "AUTO" (One (Text "auto")) false;
   Stmt "FALSE" (One (Text "sp")) false;
   Stmt "FORCE" (One (Text "mp")) false;
   Stmt "MULTIPROCESSING_MODE" (One (Text "auto")) false;
   Stmt "TQDM_DISABLE" (One (Flag false)) false;
   Stmt "reset" (One (Method "reset")) false;
   Stmt "page_steps" (One (Method "page_steps")) false].
