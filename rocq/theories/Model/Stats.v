(** tablite/utils.py [_numeric_statistics_summary] (lines 233-298), exact
    rational arithmetic.  The quartiles ([iqr*], lines 248-273) are
    in Model/Summary.v; [var ** (1 / 2)] is left out: [st_var] is its argument. *)
From Coq Require Export QArith.
From Verif.Spec Require Export Base PySort.
Local Open Scope Q_scope.

Record stats_acc := Acc {
  a_cnt : Z;               (* cnt_n *)
  a_median : option Q;
  a_mn : Q;
  a_cstd : Q;
  a_mode : option Q;
  a_maxcnt : Z;
  a_total : Q;             (* total_val *)
  a_prev : option Q        (* vx_0 *)
}.

Record nstats := NStats {
  st_min : Q; st_max : Q; st_mean : Q; st_median : option Q; st_var : Q;
  st_mode : option Q; st_sum : Q
}.

(** utils.py 234-235: [VC.sort()], lists compare lexicographically *)
Definition vc_leb (a b : Q * Z) : bool :=
  if Qeq_bool a.1 b.1 then (a.2 <=? b.2)%Z else Qle_bool a.1 b.1.

(** utils.py 249-281, one round; [iqr50 = total_cnt / 2] *)
Definition stats_step (total_cnt : Z) (s : stats_acc) (e : Q * Z) : res stats_acc :=
  let '(vx, cx) := e in
  let cnt_0 := a_cnt s in
  let cnt_n := (cnt_0 + cx)%Z in
  let median :=                                                         (* 259-263 *)
    if ((2 * cnt_0 <? total_cnt) && (total_cnt <? 2 * cnt_n))%Z then Ok (Some vx)
    else if (2 * cnt_0 =? total_cnt)%Z then
      let delta := ((2 * (total_cnt - 1)) mod 4)%Z in
      match a_prev s with
      | Some v0 => Ok (Some ((v0 * inject_Z (4 - delta) + vx * inject_Z delta) / 4))
      | None => Err TypeError
      end
    else Ok (a_median s) in
  let dt := inject_Z cx * (vx - a_mn s) in                              (* 272 *)
  let mn := a_mn s + dt / inject_Z cnt_n in                             (* 273 *)
  let cstd := a_cstd s + dt * (vx - mn) in                              (* 274 *)
  let '(mode, max_cnt) := if (a_maxcnt s <? cx)%Z then (Some vx, cx)    (* 277-278 *)
                          else (a_mode s, a_maxcnt s) in
  match median with
  | Err e => Err e
  | Ok median =>
      if (cnt_n =? 0)%Z then Err ZeroDivisionError else                 (* 273 *)
      Ok (Acc cnt_n median mn cstd mode max_cnt (a_total s + vx * inject_Z cx) (Some vx))
  end.

(** utils.py 233-298 *)
Definition numeric_summary (vc : list (Q * Z)) : res nstats :=
  let VC := py_sort vc_leb vc in
  let total_cnt := fold_right Z.add 0%Z (map snd vc) in
  match VC, list.last VC with
  | first :: _, Some lst =>
      match fold_left (λ acc e, res_bind acc (λ s, stats_step total_cnt s e)) VC
              (Ok (Acc 0 None 0 0 None (-1) 0 None)) with
      | Err e => Err e
      | Ok s =>
          if (total_cnt <? 1)%Z then Err TypeError else   (* 289: total_val / None *)
          Ok (NStats first.1 lst.1 (a_total s / inject_Z total_cnt) (a_median s)
                (if (1 <? a_cnt s)%Z then a_cstd s / inject_Z (a_cnt s - 1) else 0)
                (a_mode s) (a_total s))
      end
  | _, _ => Err IndexError                                (* VC[0] *)
  end.
