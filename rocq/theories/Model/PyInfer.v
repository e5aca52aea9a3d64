(** tablite/datatypes.py 182-326 (formats of dates), 452-453 (types) and 482-688 ([guess] and the
    inference functions), with [Rank] of Model/Rank.v.  Lines without a file are of datatypes.py.

    A text is the list of its code points, a float its 64 bits.  Simplifications: a [datetime] or
    [time] with a time zone is whatever [iso_datetime], [iso_time] say; of the values which are not
    texts those of [cell] are modelled (no numpy scalars, bytes, timedelta); a [nan] is not the
    object [np.nan]; [int] of more than 4300 digits, which new versions of Python refuse, is read. *)
From Coq Require Import String.
From Verif.Spec Require Export TypedText Binary64.
From Verif.Model Require Export Npy Rank.
Local Open Scope string_scope.
Local Open Scope list_scope.
Local Open Scope Z_scope.

(** Python's library: [fromisoformat] of the three classes ([None]: ValueError) and floats. *)
Record py_lib := PyLib {
  iso_date : list Z → option ymd;
  iso_datetime : list Z → option (ymd * Z);
  iso_time : list Z → option Z;
  float_read : list Z → option Z;            (* [float(text)]; [None]: ValueError *)
  float_show : Z → list Z;                   (* [str(x)] *)
  float_format : nat → Z → list Z;           (* ["{0:.kf}".format(x)] *)
  float_int : Z → res Z;                     (* [int(x)] *)
  float_is_int : Z → Z → bool;               (* [n == x] *)
  float_of_int : Z → res Z;                  (* [float(n)] *)
  odd_micro : list Z → res Z;                (* [int(float("0." + s) * 10**6)], [s] not just digits *)
  show : cell → list Z                       (* [str(v)] of what is not a text *)
}.

(** [s.replace(a, b, n)], [s.replace(a, b)] and [s.replace(a, "")] of single characters *)
Fixpoint replace_n (a b : Z) (n : nat) (s : list Z) : list Z :=
  match n, s with
  | S k, c :: s => if c =? a then b :: replace_n a b k s else c :: replace_n a b n s
  | _, _ => s
  end.
Definition replace_all (a b : Z) (s : list Z) : list Z := map (λ c, if c =? a then b else c) s.
Definition remove_all (a : Z) (s : list Z) : list Z := filter (λ c, c ≠ a) s.

(** [s.find(c, start)] of a character *)
Fixpoint index_from (c : Z) (s : list Z) (i : Z) : Z :=
  match s with [] => -1 | x :: s => if x =? c then i else index_from c s (i + 1) end.
Definition find_char (s : list Z) (c : Z) (start : nat) : Z := index_from c (drop start s) (Z.of_nat start).
Definition has (c : Z) (s : list Z) : bool := bool_decide (c ∈ s).

(** [s[:n]] *)
Definition upto (n : Z) (s : list Z) : list Z := take (Z.to_nat (if n <? 0 then n + zlen s else n)) s.
(** [s[a:b]] with [0 <= a], [0 <= b] *)
Definition sub (a b : nat) (s : list Z) : list Z := take (b - a) (drop a s).

(** [int(s)]: what is read here has signs, digits and letters only *)
Definition all_digits (s : list Z) : bool := forallb isDigit s.
Definition py_int (s : list Z) : res Z :=
  let unsigned ds := if (0 <? zlen ds) && all_digits ds then Ok (digits_value ds) else Err ValueError in
  match s with
  | c :: ds => if c =? 43 then unsigned ds else if c =? 45 then res_map Z.opp (unsigned ds) else unsigned s
  | [] => Err ValueError
  end.

(** [str(n).rjust(6, "0")], [n >= 0] *)
Fixpoint dec_all (fuel : nat) (n : Z) : list Z :=
  match fuel with
  | O => []
  | S fuel => if n <? 10 then [48 + n] else dec_all fuel (n / 10) ++ [48 + n mod 10]
  end.
Definition micro_text (n : Z) : list Z :=
  let t := dec_all (S (Z.to_nat (Z.log2 n))) n in replicate (6 - length t) 48 ++ t.

(** [date(y, m, d)] *)
Definition new_date (y m d : Z) : res ymd :=
  if (1 <=? y) && (y <=? 9999) && (1 <=? m) && (m <=? 12) && (1 <=? d) && (d <=? month_days y m)
  then Ok (Ymd y m d) else Err ValueError.

(** ** The formats *)

(** [N] for a digit: 637, 663 *)
Definition pattern (s : list Z) : list Z := map (λ c, if isDigit c then 78 else c) s.

(** 182-216: [DateSplit sep reversed] *)
Inductive date_reader := DateSplit (sep : Z) (reversed : bool) | DateCompact.
Definition date_formats : list (list Z * date_reader) :=
  [(bytes_of "NNNN-NN-NN", DateSplit 45 false);
   (bytes_of "NNNN-N-NN", DateSplit 45 false);
   (bytes_of "NNNN-NN-N", DateSplit 45 false);
   (bytes_of "NNNN-N-N", DateSplit 45 false);
   (bytes_of "NN-NN-NNNN", DateSplit 45 true);
   (bytes_of "N-NN-NNNN", DateSplit 45 true);
   (bytes_of "NN-N-NNNN", DateSplit 45 true);
   (bytes_of "N-N-NNNN", DateSplit 45 true);
   (bytes_of "NNNN.NN.NN", DateSplit 46 false);
   (bytes_of "NNNN.N.NN", DateSplit 46 false);
   (bytes_of "NNNN.NN.N", DateSplit 46 false);
   (bytes_of "NNNN.N.N", DateSplit 46 false);
   (bytes_of "NN.NN.NNNN", DateSplit 46 true);
   (bytes_of "N.NN.NNNN", DateSplit 46 true);
   (bytes_of "NN.N.NNNN", DateSplit 46 true);
   (bytes_of "N.N.NNNN", DateSplit 46 true);
   (bytes_of "NNNN/NN/NN", DateSplit 47 false);
   (bytes_of "NNNN/N/NN", DateSplit 47 false);
   (bytes_of "NNNN/NN/N", DateSplit 47 false);
   (bytes_of "NNNN/N/N", DateSplit 47 false);
   (bytes_of "NN/NN/NNNN", DateSplit 47 true);
   (bytes_of "N/NN/NNNN", DateSplit 47 true);
   (bytes_of "NN/N/NNNN", DateSplit 47 true);
   (bytes_of "N/N/NNNN", DateSplit 47 true);
   (bytes_of "NNNN NN NN", DateSplit 32 false);
   (bytes_of "NNNN N NN", DateSplit 32 false);
   (bytes_of "NNNN NN N", DateSplit 32 false);
   (bytes_of "NNNN N N", DateSplit 32 false);
   (bytes_of "NN NN NNNN", DateSplit 32 true);
   (bytes_of "N N NNNN", DateSplit 32 true);
   (bytes_of "NN N NNNN", DateSplit 32 true);
   (bytes_of "N NN NNNN", DateSplit 32 true);
   (bytes_of "NNNNNNNN", DateCompact)].

(** [date] of the list of its arguments *)
Definition date_of_list (l : list (res Z)) : res ymd :=
  res_bind (fold_right (λ x acc, res_bind x (λ v, res_map (cons v) acc)) (Ok []) l) (λ vs,
    match vs with [y; m; d] => new_date y m d | _ => Err TypeError end).
Definition read_date (r : date_reader) (x : list Z) : res ymd :=
  match r with
  | DateSplit sep reversed =>
      let parts := map py_int (split_on sep x) in
      date_of_list (if reversed then rev parts else parts)
  | DateCompact => date_of_list [py_int (sub 0 4 x); py_int (sub 4 6 x); py_int (drop 6 x)]
  end.

(** 219-265: the arguments [ymd], [T], [compact], [day_first] of [pattern_to_datetime] *)
Inductive datetime_reader := Moment (ymd T : option Z) (compact : Z) (day_first : bool).
Definition datetime_formats : list (list Z * datetime_reader) :=
  [(bytes_of "NNNN-NN-NNTNN:NN:NN", Moment None None 0 false);
   (bytes_of "NNNN-NN-NNTNN:NN", Moment None None 0 false);
   (bytes_of "NNNN-NN-NN NN:NN:NN", Moment None (Some 32) 0 false);
   (bytes_of "NNNN-NN-NN NN:NN", Moment None (Some 32) 0 false);
   (bytes_of "NNNN/NN/NNTNN:NN:NN", Moment (Some 47) None 0 false);
   (bytes_of "NNNN/NN/NNTNN:NN", Moment (Some 47) None 0 false);
   (bytes_of "NNNN/NN/NN NN:NN:NN", Moment (Some 47) (Some 32) 0 false);
   (bytes_of "NNNN/NN/NN NN:NN", Moment (Some 47) (Some 32) 0 false);
   (bytes_of "NNNN NN NNTNN:NN:NN", Moment (Some 32) None 0 false);
   (bytes_of "NNNN NN NNTNN:NN", Moment (Some 32) None 0 false);
   (bytes_of "NNNN NN NN NN:NN:NN", Moment (Some 32) (Some 32) 0 false);
   (bytes_of "NNNN NN NN NN:NN", Moment (Some 32) (Some 32) 0 false);
   (bytes_of "NNNN.NN.NNTNN:NN:NN", Moment (Some 46) None 0 false);
   (bytes_of "NNNN.NN.NNTNN:NN", Moment (Some 46) None 0 false);
   (bytes_of "NNNN.NN.NN NN:NN:NN", Moment (Some 46) (Some 32) 0 false);
   (bytes_of "NNNN.NN.NN NN:NN", Moment (Some 46) (Some 32) 0 false);
   (bytes_of "NN-NN-NNNNTNN:NN:NN", Moment (Some 45) (Some 32) 0 true);
   (bytes_of "NN-NN-NNNNTNN:NN", Moment (Some 45) (Some 32) 0 true);
   (bytes_of "NN-NN-NNNN NN:NN:NN", Moment (Some 45) (Some 32) 0 true);
   (bytes_of "NN-NN-NNNN NN:NN", Moment (Some 45) (Some 32) 0 true);
   (bytes_of "NN/NN/NNNNTNN:NN:NN", Moment (Some 47) None 0 true);
   (bytes_of "NN/NN/NNNNTNN:NN", Moment (Some 47) None 0 true);
   (bytes_of "NN/NN/NNNN NN:NN:NN", Moment (Some 47) (Some 32) 0 true);
   (bytes_of "NN/NN/NNNN NN:NN", Moment (Some 47) (Some 32) 0 true);
   (bytes_of "NN NN NNNNTNN:NN:NN", Moment (Some 47) None 0 true);
   (bytes_of "NN NN NNNNTNN:NN", Moment (Some 47) None 0 true);
   (bytes_of "NN NN NNNN NN:NN:NN", Moment (Some 47) None 0 true);
   (bytes_of "NN NN NNNN NN:NN", Moment (Some 47) None 0 true);
   (bytes_of "NN.NN.NNNNTNN:NN:NN", Moment (Some 46) None 0 true);
   (bytes_of "NN.NN.NNNNTNN:NN", Moment (Some 46) None 0 true);
   (bytes_of "NN.NN.NNNN NN:NN:NN", Moment (Some 46) None 0 true);
   (bytes_of "NN.NN.NNNN NN:NN", Moment (Some 46) None 0 true);
   (bytes_of "NNNNNNNNTNNNNNN", Moment None None 1 false);
   (bytes_of "NNNNNNNNTNNNN", Moment None None 1 false);
   (bytes_of "NNNNNNNNTNN", Moment None None 1 false);
   (bytes_of "NNNNNNNNNN", Moment None None 2 false);
   (bytes_of "NNNNNNNNNNNN", Moment None None 2 false);
   (bytes_of "NNNNNNNNNNNNNN", Moment None None 2 false);
   (bytes_of "NNNNNNNNTNN:NN:NN", Moment None None 3 false)].

Definition slice (a b : nat) (c : list Z) : nat * nat * list Z := (a, b, c).
(** 273-303: [b <= len(s)] keeps a slice; then [rstrip(":")] *)
Definition compact_slices (compact : Z) (n : nat) : list (nat * nat * list Z) :=
  if compact =? 1 then
    [slice 0 4 [45]; slice 4 6 [45]; slice 6 8 [84]; slice 9 11 [58]; slice 11 13 [58]; slice 13 n []]
  else if compact =? 2 then
    [slice 0 4 [45]; slice 4 6 [45]; slice 6 8 [84]; slice 8 10 [58]; slice 10 12 [58]; slice 12 n []]
  else
    [slice 0 4 [45]; slice 4 6 [45]; slice 6 8 [84]; slice 9 11 [58]; slice 12 14 [58]; slice 15 n []].
Fixpoint lstrip_colons (s : list Z) : list Z :=
  match s with c :: r => if c =? 58 then lstrip_colons r else s | [] => [] end.
Definition spread (compact : Z) (s : list Z) : list Z :=
  let parts := filter (λ p, (p.1.2 <= length s)%nat) (compact_slices compact (length s)) in
  rev (lstrip_colons (rev (concat (map (λ p, sub p.1.1 p.1.2 s ++ p.2) parts)))).

(** [int(float("0." + ds) * 10**6)] *)
Definition micro (ds : list Z) : Z :=
  qtrunc (this (fl (this (fl (inject_Z (digits_value ds) / inject_Z (10 ^ zlen ds))) * inject_Z 1000000))).

Section Infer.
  Context (lib : py_lib).

  (** 312-317; [dot]: characters after the last full stop *)
  Definition fix_fraction (s : list Z) : res (list Z) :=
    let dot := index_from 46 (rev s) 0 in
    if (0 <? dot) && (dot <? 10) then
      let ix := (length s - Z.to_nat dot)%nat in
      let ds := drop ix s in
      res_map (λ us, take ix s ++ micro_text us) (if all_digits ds then Ok (micro ds) else odd_micro lib ds)
    else Ok s.

  (** 269-323 *)
  Definition pattern_to_datetime (r : datetime_reader) (s : list Z) : res (Spec.Calendar.ymd * Z) :=
    let '(Moment ymd T compact day_first) := r in
    let s := if compact =? 0 then s else spread compact s in
    let s := if day_first then sub 6 10 s ++ [45] ++ sub 3 5 s ++ [45] ++ sub 0 2 s ++ drop 10 s else s in
    let s := replace_all 44 46 s in
    res_bind (fix_fraction s) (λ s,
      let s := match ymd with Some c => replace_n c 45 2 s | None => s end in
      let s := match T with Some c => replace_all c 84 s | None => s end in
      match iso_datetime lib s with Some v => Ok v | None => Err ValueError end).

  (** ** The types *)

  (** 634-642 *)
  Definition infer_date (s : list Z) : res Spec.Calendar.ymd :=
    match iso_date lib s with
    | Some d => Ok d
    | None => match dget date_formats (pattern s) with Some f => read_date f s | None => Err ValueError end
    end.

  (** 653-669 *)
  Definition infer_datetime (s : list Z) : res (Spec.Calendar.ymd * Z) :=
    match iso_datetime lib s with
    | Some v => Ok v
    | None =>
        let dot := if has 46 s then find_char s 46 11 else if has 44 s then find_char s 44 11 else zlen s in
        match dget datetime_formats (pattern (upto dot s)) with
        | Some f => pattern_to_datetime f s
        | None => Err ValueError
        end
    end.

  (** 677-681 *)
  Definition infer_time (s : list Z) : res Z :=
    if has 58 s then match iso_time lib s with Some t => Ok t | None => Err ValueError end
    else Err ValueError.

  (** 548-557 *)
  Definition infer_int (s : list Z) : res Z :=
    let s := remove_all 44 (remove_all 32 (remove_all 34 s)) in
    if forallb (λ c, isDigit c || (c =? 43) || (c =? 45)) s then py_int s else Err ValueError.

  (** 528-533 *)
  Definition infer_bool (s : list Z) : res bool :=
    if bool_decide (map toLower s = bytes_of "true") then Ok true
    else if bool_decide (map toLower s = bytes_of "false") then Ok false
    else Err ValueError.

  (** 568-581 *)
  Definition normal_float (s : list Z) : list Z :=
    let s := remove_all 34 s in
    let dot := find_char s 46 0 in let comma := find_char s 44 0 in
    if (dot =? comma) && (comma =? -1) then s
    else if (0 <? dot) && (dot <? comma) then replace_all 44 46 (remove_all 46 s)
    else if (comma <? dot) && (0 <? comma) then remove_all 44 s
    else if negb (comma =? 0) && (dot =? -1) then replace_all 44 46 s
    else s.

  (** [value_set.issubset(decimals)]: 583-586, 28 *)
  Definition decimals (c : Z) : bool :=
    isDigit c || (c =? 45) || (c =? 43) || (c =? 101) || (c =? 69) || (c =? 46).

  (** 583-623.  [float(v[:e])], [int(v[e + 1:])] and [float(...)] are ValueErrors if they fail. *)
  Definition infer_float (s : list Z) : res Z :=
    let s := normal_float s in
    if negb (forallb decimals s) then Err TypeError
    else match float_read lib s with
    | None => Err ValueError
    | Some x =>
        if has 69 s || has 101 s then
          let v := map toLower s in
          if negb (bool_decide (length (filter (λ c, c = 101) v) = 1%nat)) then Err ValueError
          else
            let e := Z.to_nat (find_char v 101 0) in
            match float_read lib (take e v), py_int (drop (S e) v) with
            | Some m, Ok n =>
                let t := float_show lib m ++ [101] ++ (if n <? 0 then [45] else []) ++ dec_all (S (Z.to_nat (Z.log2 (Z.abs n)))) (Z.abs n) in
                match float_read lib t with Some y => Ok y | None => Err ValueError end
            | _, _ => Err ValueError
            end
        else
          res_bind
            (if has 46 (float_show lib x) && negb (has 46 s) then
               res_map (λ n, (if n <? 0 then [45] else []) ++ dec_all (S (Z.to_nat (Z.log2 (Z.abs n)))) (Z.abs n)) (float_int lib x)
             else if has 46 s then Ok (float_format lib (length s - Z.to_nat (find_char s 46 0) - 1) x)
             else Ok (float_show lib x))
            (λ t, if bool_decide (map toLower s = t) then Ok x else Err ValueError)
    end.

  (** 452-453 *)
  Definition types : list kind := [KDateTime; KDate; KTime; KInt; KBool; KFloat; KStr].

  (** 30: the texts of [nones] *)
  Definition none_texts : list (list Z) :=
    [bytes_of "null"; bytes_of "Null"; bytes_of "NULL"; bytes_of "#N/A"; bytes_of "#n/a"; []; bytes_of "None"].

  (** 519-688: by the type of the value *)
  Definition infer_value (v : cell) (t : kind) : res cell :=
    match t, v with
    | KBool, CBool b => Ok (CBool b)
    | KBool, CStr s => res_map CBool (infer_bool s)
    | KInt, CInt n => Ok (CInt n)
    | KInt, CFloat x =>
        res_bind (float_int lib x) (λ n, if float_is_int lib n x then Ok (CInt n) else Err ValueError)
    | KInt, CStr s => res_map CInt (infer_int s)
    | KFloat, CBool b => res_map CFloat (float_of_int lib (if b then 1 else 0))
    | KFloat, CInt n => res_map CFloat (float_of_int lib n)
    | KFloat, CFloat x => Ok (CFloat x)
    | KFloat, CStr s => res_map CFloat (infer_float s)
    | KDate, CDateTime d _ => Ok (CDate d)
    | KDate, CDate d => Ok (CDate d)
    | KDate, CStr s => res_map CDate (infer_date s)
    | KDateTime, CDateTime d us => Ok (CDateTime d us)
    | KDateTime, CDate d => Ok (CDateTime d 0)
    | KDateTime, CStr s => res_map (λ p, CDateTime p.1 p.2) (infer_datetime s)
    | KTime, CTime us => Ok (CTime us)
    | KTime, CStr s => res_map CTime (infer_time s)
    | KStr, CStr s => Ok (CStr s)
    | KStr, v => Ok (CStr (show lib v))
    | _, _ => Err ValueError
    end.

  (** 506-517; every type of [types] is supported *)
  Definition infer (v : cell) (t : kind) : res cell :=
    match v, t with
    | CStr s, KStr => Ok (CStr s)
    | CNone, _ => Ok CNone
    | CStr s, _ => if bool_decide (s ∈ none_texts) then Ok CNone else infer_value v t
    | _, _ => infer_value v t
    end.

  (** 496-502: [except (ValueError, TypeError)]; [None]: no type was left *)
  Fixpoint first_type (v : cell) (ts : list kind) : res (option (kind * cell)) :=
    match ts with
    | [] => Ok None
    | t :: ts =>
        match infer v t with
        | Ok w => Ok (Some (t, w))
        | Err ValueError | Err TypeError => first_type v ts
        | Err e => Err e
        end
    end.

  (** 483-503 *)
  Fixpoint guess_loop (r : prank kind) (vs : list cell) : res (list cell) :=
    match vs with
    | [] => Ok []
    | v :: vs =>
        res_bind (first_type v (pr_list r)) (λ o,
          match o with
          | None => res_map (cons CNone) (guess_loop r vs)
          | Some (t, w) => res_bind (prank_match r t) (λ r, res_map (cons w) (guess_loop r vs))
          end)
    end.
  Definition guess (vs : list cell) : res (list cell) := guess_loop (prank_new types) vs.
End Infer.
