(** C48-C51, C54-C56, C61-C64: names, dates, numbers, ranges, statistics. *)
From Verif.Spec Require Import PyList Counts Calendar Statistics.
From Verif.Model Require Import Names Dates Pickle Rounding PageSteps Intercept DateRange Sheets Rank Stats.
From Verif.Proof Require Import NamesProofs DatesProofs SmallProofs RoundingProofs InterceptProofs
  RankProofs StatsProofs.
Local Open Scope Z_scope.

(** ** C48: the search ends, with a free name: the wanted one if free, else the
    first free one among wanted_1, wanted_2, ... *)
Theorem C48_unique_name :
  ∀ w names, ∃ n, unique_name w names = Some n ∧ n ∉ names ∧
    ((w ∉ names ∧ n = w) ∨
     (w ∈ names ∧ ∃ k, (1 <= k)%N ∧ n = (w +:+ "_" +:+ pretty k)%string ∧
                       ∀ j, (1 <= j < k)%N → (w +:+ "_" +:+ pretty j)%string ∈ names)).
Proof. exact unique_name_spec. Qed.
Theorem C48_dedup_headers :
  ∀ hs, ∃ ns, dedup_headers hs = Some ns ∧ NoDup ns ∧ length ns = length hs ∧
    ∀ i h n, hs !! i = Some h → ns !! i = Some n →
      (h ∉ take i ns → n = h) ∧ (h ∈ take i ns → ∃ k, n = (h +:+ "_" +:+ pretty (k : N))%string).
Proof. exact dedup_headers_spec. Qed.
Example C48_example :
  dedup_headers ["a"; "a_1"; "a"; "b"; "a"; ""; ""]%string
  = Some ["a"; "a_1"; "a_2"; "b"; "a_3"; ""; "_1"]%string.
Proof. by vm_compute. Qed.
Print Assumptions C48_unique_name.
Print Assumptions C48_dedup_headers.

(** ** C49 *)
Theorem C49_day_numbers :
  days2Components 0 = Some (Ymd 1970 1 1) ∧
  ∀ n, ∃ d, days2Components n = Some d ∧ valid_ymd d ∧ days2Components (n + 1) = Some (next_day d).
Proof. exact (conj days_epoch days_step). Qed.
(** ... and these conditions leave no other choice *)
Theorem C49_day_numbers_unique :
  ∀ f : Z → ymd,
  f 0 = Ymd 1970 1 1 → (∀ n, valid_ymd (f n)) → (∀ n, f (n + 1) = next_day (f n)) →
  ∀ n, days2Components n = Some (f n).
Proof. exact days_unique. Qed.
Example C49_example :
  days2Components 11016 = Some (Ymd 2000 2 29) ∧ days2Components (-25509) = Some (Ymd 1900 2 28)
  ∧ days2Components (-25508) = Some (Ymd 1900 3 1).
Proof. by vm_compute. Qed.
Print Assumptions C49_day_numbers.
Print Assumptions C49_day_numbers_unique.

(** ** C50 *)
Theorem C50_timedelta :
  ∀ w d h m s ms us, ∃ D S U, toTimedelta w d h m s ms us = (D, S, U) ∧
  0 <= S < 86400 ∧ 0 <= U < 1000000 ∧
  (D * 86400 + S) * 1000000 + U = duration_us w d h m s ms us.
Proof. exact toTimedelta_spec. Qed.
Example C50_example : toTimedelta 1 (-3) 25 0 (-1) 0 (-1) = (5, 3598, 999999).
Proof. by vm_compute. Qed.
Print Assumptions C50_timedelta.

(** ** C51: full claim: every 64 bit integer is read back unchanged, with the
    stream positioned behind it.  False from 2^31 on. *)
Theorem C51_pickle_int_refuted :
  ∃ v, - 2 ^ 63 <= v < 2 ^ 63 ∧ readPickleInt (writePickleBinint v) ≠ Some (v, []).
Proof. exact write_read_refute. Qed.
Theorem C51_pickle_int_partial :
  ∀ v rest, - 2 ^ 31 <= v < 2 ^ 31 → readPickleInt (writePickleBinint v ++ rest) = Some (v, rest).
Proof. exact write_read. Qed.
(** what is read for every integer *)
Theorem C51_pickle_int_actual :
  ∀ v rest, readPickleInt (writePickleBinint v ++ rest)
  = Some (if bool_decide (0 <= v < 2 ^ 16) then v else
          let u := v mod 2 ^ 32 in if u <? 2 ^ 31 then u else u - 2 ^ 32, rest).
Proof. exact write_read_actual. Qed.
Example C51_example :
  writePickleBinint 70000 = [74; 112; 17; 1; 0] ∧ readPickleInt [74; 112; 17; 1; 0; 9] = Some (70000, [9])
  ∧ readPickleInt (writePickleBinint (-2)) = Some (-2, []).
Proof. by vm_compute. Qed.
Print Assumptions C51_pickle_int_refuted.
Print Assumptions C51_pickle_int_partial.
Print Assumptions C51_pickle_int_actual.

(** ** C54: full claim: a multiple, nearest to / not above / not below the
    value.  With [up=True] it is false of values that are multiples already. *)
Section C54.
  Local Open Scope Q_scope.
  Theorem C54_round_up_refuted :
    ∃ v m, 0 < m ∧ ~ (∀ k : Z, v <= inject_Z k * m → dt_round v m (Some true) <= inject_Z k * m).
  Proof. exact round_up_refute. Qed.
  Theorem C54_round_partial :
    ∀ v m, 0 < m →
    (∀ up, ∃ k : Z, dt_round v m up == inject_Z k * m) ∧
    (∀ k : Z, Qabs (dt_round v m None - v) <= Qabs (inject_Z k * m - v)) ∧
    (dt_round v m (Some false) <= v ∧ v < dt_round v m (Some false) + m) ∧
    (v == 0 ∨ (∀ k : Z, ~ v == inject_Z k * m) →
     v <= dt_round v m (Some true) ∧ dt_round v m (Some true) < v + m).
  Proof.
    exact (λ v m H, conj (round_multiple v m) (conj (round_nearest v m H)
            (conj (round_down v m H) (round_up v m H)))).
  Qed.
  Example C54_example :
    dt_round (17 # 2) 3 None == 9 ∧ dt_round (- 17 # 2) 3 (Some false) == - (9)
    ∧ dt_round (- 17 # 2) 3 (Some true) == - (6) ∧ dt_round (15 # 2) 3 None == 6.
  Proof. by vm_compute. Qed.
End C54.
Print Assumptions C54_round_up_refuted.
Print Assumptions C54_round_partial.

(** ** C55: full claim as below with all steps non-empty for every length.
    False of length 0 (one empty step). *)
Theorem C55_page_steps_refuted :
  ∃ ps len, 0 < ps ∧ 0 <= len ∧ ¬ Forall (λ p, p.1 < p.2) (page_steps ps len).
Proof. exact page_steps_empty_step. Qed.
Theorem C55_page_steps_partial :
  ∀ ps len, 0 < ps → 0 <= len →
  concat (map (λ p, seqZ p.1 (p.2 - p.1)) (page_steps ps len)) = seqZ 0 len ∧
  Forall (λ p, 0 <= p.2 - p.1 <= ps) (page_steps ps len) ∧
  (0 < len → Forall (λ p, p.1 < p.2) (page_steps ps len)).
Proof. exact page_steps_spec. Qed.
Example C55_example : page_steps 4 9 = [(0, 4); (4, 8); (8, 9)] ∧ page_steps 4 8 = [(0, 4); (4, 8)].
Proof. by vm_compute. Qed.
Print Assumptions C55_page_steps_refuted.
Print Assumptions C55_page_steps_partial.

(** ** C56: full claim: for all ranges with positive steps.  False when neither
    step divides the other and they have a common factor; raises for equal
    steps above 1. *)
Theorem C56_intercept_refuted :
  (∃ A B r i, 0 < r_step A ∧ 0 < r_step B ∧ intercept A B = Ok r ∧ i ∈ Intercept.rlist r ∧ i ∉ Intercept.rlist A) ∧
  (∃ A B, 0 < r_step A ∧ 0 < r_step B ∧ intercept A B = Err UnboundLocalError).
Proof. exact intercept_refute. Qed.
Theorem C56_intercept_partial :
  ∀ A B, 0 < r_step A → 0 < r_step B →
  Z.gcd (r_step A) (r_step B) = 1 ∨ (r_step A | r_step B) ∨ (r_step B | r_step A) →
  (r_step A ≠ r_step B ∨ r_step A = 1) →
  ∃ r, intercept A B = Ok r ∧ 0 < r_step r ∧
       ∀ i, i ∈ py_range (r_start r) (r_stop r) (r_step r) ↔
            i ∈ py_range (r_start A) (r_stop A) (r_step A) ∧
            i ∈ py_range (r_start B) (r_stop B) (r_step B).
Proof. exact intercept_members. Qed.
Example C56_example :
  intercept (Rng 1 100 6) (Rng 10 60 5) = Ok (Rng 25 60 30) ∧ Intercept.rlist (Rng 25 60 30) = [25; 55].
Proof. by vm_compute. Qed.
Print Assumptions C56_intercept_refuted.
Print Assumptions C56_intercept_partial.

(** ** C61: [vc] is the histogram, [xs] any list of values with that histogram. *)
Section C61.
  Local Open Scope Q_scope.
  Theorem C61_summary :
    ∀ (vc : list (Q * Z)) (xs : list Q),
    vc ≠ [] → Forall (λ e, 0 < e.2)%Z vc →
    xs ≡ₚ concat (map (λ e, replicate (Z.to_nat e.2) e.1) vc) →
    ∃ s m d, numeric_summary vc = Ok s ∧
      (st_min s ∈ xs ∧ ∀ x, x ∈ xs → st_min s <= x) ∧
      (st_max s ∈ xs ∧ ∀ x, x ∈ xs → x <= st_max s) ∧
      st_sum s == qsum xs ∧
      st_mean s == qmean xs ∧
      st_var s == (if (1 <? length xs)%nat then qvar xs else 0) ∧
      (st_median s = Some d ∧ is_median d xs) ∧
      (st_mode s = Some m ∧ m ∈ xs ∧
       ((∀ i j a b, i ≠ j → vc !! i = Some a → vc !! j = Some b → ~ a.1 == b.1) →
        ∀ x, x ∈ xs → (qcount x xs <= qcount m xs)%nat ∧
                      (qcount x xs = qcount m xs → m <= x))).
  Proof. exact numeric_summary_spec. Qed.
  Example C61_example :
    match numeric_summary [(7, 1%Z); (1, 2%Z); (4, 1%Z); (2, 2%Z)] with
    | Ok s => st_min s == 1 ∧ st_max s == 7 ∧ st_sum s == 17 ∧ st_mean s == 17 # 6
              ∧ st_median s = Some 2 ∧ st_mode s = Some 1 ∧ st_var s == 161 # 30
    | Err _ => False
    end.
  Proof. by vm_compute. Qed.
End C61.
Print Assumptions C61_summary.

(** ** C62: full claim: all [start + k * step] before [stop].  The last one is
    lost unless [step] divides the distance. *)
Theorem C62_date_range_refuted :
  ∃ start stop step l k, step ≠ 0 ∧ date_range start stop step = Ok l ∧
    0 < step ∧ 0 <= k ∧ start + k * step < stop ∧ start + k * step ∉ l.
Proof. exact date_range_short. Qed.
Theorem C62_date_range_partial :
  ∀ start stop step l, step ≠ 0 → date_range start stop step = Ok l →
  (∀ i x, l !! i = Some x → x = start + Z.of_nat i * step) ∧
  ((stop - start) mod step = 0 →
   ∀ x, x ∈ l ↔ ∃ k, 0 <= k ∧ x = start + k * step ∧ (if 0 <? step then x < stop else stop < x)) ∧
  (∀ x, x ∈ l ↔ ∃ k, 0 <= k ∧ x = start + k * step ∧
     (if 0 <? step then start + (k + 1) * step <= stop else stop <= start + (k + 1) * step)).
Proof.
  exact (λ start stop step l H E, conj (date_range_sorted _ _ _ _ H E)
    (conj (λ D, date_range_divides _ _ _ _ H D E) (λ x, date_range_member _ _ _ _ x H E))).
Qed.
Example C62_example :
  date_range 10 22 4 = Ok [10; 14; 18] ∧ date_range 10 0 (-5) = Ok [10; 5].
Proof. by vm_compute. Qed.
Print Assumptions C62_date_range_refuted.
Print Assumptions C62_date_range_partial.

(** ** C63: full claim: [take limit (drop start data)], [data] being the rows
    after the header row.  Excel takes one row too many, ODS ignores [start]. *)
Theorem C63_sheet_rows_refuted :
  (∃ (rows : list Z) start limit, 0 <= start ∧ 0 < limit ∧
     excel_rows rows true 0 (Some (zlen rows)) start limit
     ≠ take (Z.to_nat limit) (drop (Z.to_nat start) (drop 1 rows))) ∧
  (∃ (rows : list Z) start limit, 0 <= start ∧ 0 < limit ∧
     ods_rows rows true 0 start limit
     ≠ take (Z.to_nat limit) (drop (Z.to_nat start) (drop 1 rows))).
Proof. exact sheet_rows_wrong. Qed.
Theorem C63_excel_rows_partial :
  ∀ {A} (rows : list A) (hdr : bool) hri mr start limit,
  0 <= hri → 0 <= start → 0 < limit → mr = None ∨ mr = Some (zlen rows) →
  (excel_rows rows hdr hri mr start limit
   = take (Z.to_nat (limit + 1))
       (drop (Z.to_nat start) (drop (Z.to_nat (hri + if hdr then 1 else 0)) rows))) ∧
  (zlen rows <= (hri + if hdr then 1 else 0) + start + limit →
   excel_rows rows hdr hri mr start limit
   = take (Z.to_nat limit)
       (drop (Z.to_nat start) (drop (Z.to_nat (hri + if hdr then 1 else 0)) rows))).
Proof.
  exact (λ A rows hdr hri mr start limit a b c d,
    conj (excel_rows_actual rows hdr hri mr start limit a b c d)
         (excel_rows_partial rows hdr hri mr start limit a b c d)).
Qed.
Theorem C63_ods_rows_partial :
  ∀ {A} (rows : list A) (hdr : bool) hri start limit,
  0 <= hri → 0 < limit →
  ods_rows rows hdr hri start limit
  = take (Z.to_nat limit) (drop (Z.to_nat (hri + if hdr then 1 else 0)) rows).
Proof. exact @ods_rows_actual. Qed.
Example C63_example :
  excel_rows [0; 1; 2; 3; 4] true 0 (Some 5) 2 7 = [3; 4] ∧ ods_rows [0; 1; 2; 3; 4] false 1 0 3 = [1; 2; 3].
Proof. by vm_compute. Qed.
Print Assumptions C63_sheet_rows_refuted.
Print Assumptions C63_excel_rows_partial.
Print Assumptions C63_ods_rows_partial.

(** ** C64, Python: after any history of matches of known items the ranking
    succeeds, is a permutation of the items, descending by count, and every
    count is the number of matches of its item. *)
Theorem C64_python_rank :
  ∀ {K} `{EqDecision K} (items hist : list K),
  NoDup items → Forall (λ k, k ∈ items) hist →
  ∃ s, fold_left (λ acc k, res_bind acc (λ s, prank_match s k)) hist (Ok (prank_new items)) = Ok s ∧
    pr_list s ≡ₚ items ∧
    length (pr_ranks s) = length (pr_list s) ∧
    (∀ i k, pr_list s !! i = Some k → pr_ranks s !! i = Some (count_if (λ k', k' = k) hist)) ∧
    (∀ i j a b, (i < j)%nat → pr_ranks s !! i = Some a → pr_ranks s !! j = Some b → b <= a).
Proof. exact @rank_history_plain. Qed.
Example C64_python_example :
  match fold_left (λ acc k, res_bind acc (λ s, prank_match s k)) [3; 2; 3; 1; 1; 3] (Ok (prank_new [1; 2; 3])) with
  | Ok s => pr_list s = [3; 1; 2] ∧ pr_ranks s = [3; 2; 1]
  | Err _ => False
  end.
Proof. by vm_compute. Qed.
(** Nim: full claim: the same.  False: [DT_STRING] stands behind every type that
    ever matched, whatever its count. *)
Theorem C64_nim_rank_refuted :
  ∃ V (fits : ntype → V → bool) vs i j t n u m,
    (i < j)%nat ∧ (runRank fits vs).2 !! i = Some (t, n) ∧ (runRank fits vs).2 !! j = Some (u, m) ∧ n < m.
Proof. exact nim_rank_unsorted. Qed.
(** Every string is counted under exactly one type that accepts it; the ranking
    is a permutation of the types with the right counts; all types but
    [DT_STRING] are descending. *)
Theorem C64_nim_rank_partial :
  ∀ {V} (fits : ntype → V → bool) vs dts r,
  runRank fits vs = (dts, r) →
  Forall2 (λ v dt, dt = DT_STRING ∨ fits dt v = true) vs dts ∧
  r.*1 ≡ₚ all_ntypes ∧
  (∀ t n, (t, n) ∈ r → n = count_if (λ u, u = t) dts) ∧
  (∀ i j t n u m, (i < j)%nat → r !! i = Some (t, n) → r !! j = Some (u, m) →
     (t ≠ DT_STRING → u ≠ DT_STRING → m <= n) ∧
     (t = DT_STRING → m = 0) ∧
     (u = DT_STRING → 0 < m → 0 < n)).
Proof. exact @runRank_spec. Qed.
Example C64_nim_example :
  let r := runRank (λ t (v : Z), bool_decide (t = DT_BOOL) && (v =? 0) || bool_decide (t = DT_TIME) && (v =? 1))
             [0; 1; 1; 2; 0; 1] in
  r.1 = [DT_BOOL; DT_TIME; DT_TIME; DT_STRING; DT_BOOL; DT_TIME]
  ∧ take 3 r.2 = [(DT_TIME, 3); (DT_BOOL, 2); (DT_STRING, 1)].
Proof. by vm_compute. Qed.
Print Assumptions C64_python_rank.
Print Assumptions C64_nim_rank_refuted.
Print Assumptions C64_nim_rank_partial.
