(** C93, C94: sheets. *)
From Coq Require Import String.
From Verif.Spec Require Import SheetCells SheetRefs.
From Verif.Proof Require Import TableBase SheetFinal SheetOds SheetDimsProofs.
From Verif.Model Require Import SheetReader SheetDims.
Local Open Scope string_scope.
Local Open Scope list_scope.
Local Open Scope Z_scope.

(** ** C93: a column of the imported table has the cells of the column of the sheet, under its header, for the rows that
    [skip_empty] keeps.  False: tabs and line ends vanish, and one number beyond 64 bits or one duration fails the import. *)
Theorem C93_excel_refuted :
  let str := λ _ : xcell unit, "a" in
  let read rows := res_map contents (excel_reader (λ _, tt) 2 str (λ _, []) (λ _, tt) rows None true 0 None SkipNone 0 10) in
  read [[XStr [97]]; [XStr [97; 10; 98]]; [XStr [97; 9; 98]]] = Ok [("a", [XStr [97; 98]; XStr [97; 98]])] ∧
  read [[XStr [97]]; [XInt (2 ^ 63)]] = Err OtherError ∧ read [[XStr [97]]; [XOther]] = Err OtherError.
Proof. by vm_compute. Qed.
Print Assumptions C93_excel_refuted.

(** True for texts without these characters, and what is read in every case: [d] are the columns chosen, [kept] the rows. The table is
    made if all values in them can be stored (in temporary files of type, length and bytes), and only then. The page size does not matter. *)
Theorem C93_excel_partial {O T} `{EqDecision O, EqDecision T} (ty : xcell O → T) ps str dumps loads
    (rows : list (list (xcell O))) w max_row (hdr : bool) hri columns s start limit header :
  0 < ps → (∀ o, loads (dumps o) = o) →
  Forall (λ row, length row = w) rows → max_row = None ∨ max_row = Some (zlen rows) →
  0 <= hri → rows !! Z.to_nat hri = Some header → 0 <= start → 0 < limit →
  let fields := if hdr then map (λ c, header_text str (cleaned c)) header else map (λ i, pretty (N.of_nat i)) (seq 0 w) in
  match columns with Some cs => Forall (λ k, k ∈ fields) cs | None => True end →
  ∃ d, chooses fields columns d ∧ (columns = None → dedup_headers fields = Some d.*1) ∧
    let row_of row := map (λ p : string * nat, cleaned (cell_at p.2 row)) d in
    let kept := filter (λ row, keeps (λ v, v = XNone) s (row_of row))
      (take (Z.to_nat (limit + 1)) (drop (Z.to_nat start) (drop (Z.to_nat (hri + if hdr then 1 else 0)) rows))) in
    (Forall (λ row, Forall (storable (λ o, zlen (dumps o))) (row_of row)) kept →
      ∃ t : table string (xcell O) T, excel_reader ty ps str dumps loads rows max_row hdr hri columns s start limit = Ok t ∧
        contents t = map (λ p, (p.1, map (λ row, cleaned (cell_at p.2 row)) kept)) d) ∧
    (∀ t : table string (xcell O) T, excel_reader ty ps str dumps loads rows max_row hdr hri columns s start limit = Ok t →
      Forall (Forall (λ v, ∀ f, v = XFloat f → 0 <= f < 2 ^ 64)) rows →
      Forall (λ row, Forall (storable (λ o, zlen (dumps o))) (row_of row)) kept).
Proof.
  exact (λ H1 H2, excel_result ty ps str dumps loads H1 H2 rows w max_row hdr hri columns s start limit header).
Qed.
Example C93_excel_case :
  let str := λ v : xcell unit, match v with XStr [97] => "a" | XStr _ => "b" | _ => "?" end in
  let rows := [[XStr [97]; XStr [98]; XStr [97]]; [XInt (-5); XNone; XBool true]; [XNone; XNone; XNone];
               [XFloat 4614253070214989087; XStr [8364]; XObj tt]; [XInt 3; XInt 4; XInt 5]] in
  res_map contents (excel_reader (λ _, tt) 2 str (λ _, [1; 2]) (λ _, tt) rows (Some 5) true 0 None SkipAll 0 10)
  = Ok [("a", [XInt (-5); XFloat 4614253070214989087; XInt 3]); ("b", [XNone; XStr [8364]; XInt 4]);
        ("a_1", [XBool true; XObj tt; XInt 5])] ∧
  res_map contents (excel_reader (λ _, tt) 2 str (λ _, [1; 2]) (λ _, tt) rows (Some 5) true 0 (Some ["b"; "a"]) SkipAny 1 10)
  = Ok [("b", [XStr [8364]; XInt 4]); ("a", [XFloat 4614253070214989087; XInt 3])].
Proof. by vm_compute. Qed.
Print Assumptions C93_excel_partial.

(** The ODS reader: every column with a header asked for; the rows after the header that are kept, of these [limit]; [start] is not
    used (C63). *)
Theorem C93_ods {O T} `{EqDecision O, EqDecision T} (ty : xcell O → T) ps str
    (data : list (list (xcell O))) w (hdr : bool) hri columns s start limit header :
  0 < ps → Forall (λ row, length row = w) data → 0 <= hri → data !! Z.to_nat hri = Some header → 0 <= start → 0 < limit →
  let kept := filter (keeps (λ v, v = XNone ∨ v = XStr []) s) (drop (Z.to_nat (hri + if hdr then 1 else 0)) data) in
  let fields := if hdr then map (header_text str) header else map (λ i, ("_" +:+ pretty (N.of_nat i + 1)%N)%string) (seq 0 w) in
  hdr = true ∨ kept ≠ [] →
  ∃ (t : table string (xcell O) T) d, ods_reader ty ps str data hdr hri columns s start limit = Ok t ∧ chooses_all fields columns d ∧
    (columns = None → dedup_headers fields = Some d.*1) ∧
    contents t = map (λ p : string * nat, (p.1, map (cell_at p.2) (take (Z.to_nat limit) kept))) d.
Proof. exact (λ H, ods_result ty ps str H data w hdr hri columns s start limit header). Qed.
Example C93_ods_case :
  let str := λ v : xcell unit, match v with XStr [97] => "a" | XStr _ => "b" | _ => "?" end in
  let rows := [[XStr [97]; XStr [98]; XStr [97]]; [XInt 1; XNone; XBool true]; [XNone; XStr []; XNone]; [XInt 2; XInt 3; XInt 4]] in
  res_map contents (ods_reader (λ _, tt) 2 str rows true 0 (Some ["a"]) SkipAll 0 10)
  = Ok [("a", [XInt 1; XInt 2]); ("a_1", [XBool true; XInt 4])] ∧
  res_map contents (ods_reader (λ _, tt) 2 str rows false 1 None SkipAny 0 10)
  = Ok [("_1", [XInt 2]); ("_2", [XInt 3]); ("_3", [XInt 4])].
Proof. by vm_compute. Qed.
Print Assumptions C93_ods.

(** The same sheet in both formats is the same table.  False with [skip_empty], without headers, with [columns] and with limits; true
    for whole sheets under their headers, of cells that can be stored and have no tabs and line ends. *)
Theorem C93_agree_refuted :
  let str := λ v : xcell unit, match v with XStr [97] => "a" | XStr _ => "b" | _ => "?" end in
  let rows := [[XStr [97]; XStr [98]]; [XInt 1; XInt 2]; [XStr []; XNone]] in
  let excel hdr columns s := res_map contents (excel_reader (λ _, tt) 2 str (λ _, []) (λ _, tt) rows None hdr 0 columns s 0 10) in
  let ods hdr columns s := res_map contents (ods_reader (λ _, tt) 2 str rows hdr 0 columns s 0 10) in
  (excel true None SkipAll = Ok [("a", [XInt 1; XStr []]); ("b", [XInt 2; XNone])] ∧
   ods true None SkipAll = Ok [("a", [XInt 1]); ("b", [XInt 2])]) ∧
  (res_map (map fst) (excel false None SkipNone) = Ok ["0"; "1"] ∧ res_map (map fst) (ods false None SkipNone) = Ok ["_1"; "_2"]) ∧
  (res_map (map fst) (excel true (Some ["b"; "a"]) SkipNone) = Ok ["b"; "a"] ∧
   res_map (map fst) (ods true (Some ["b"; "a"]) SkipNone) = Ok ["a"; "b"]).
Proof. by vm_compute. Qed.
Theorem C93_agree_partial {O T} `{EqDecision O, EqDecision T} (ty : xcell O → T) ps str dumps loads
    (rows : list (list (xcell O))) w max_row hri limit header :
  0 < ps → (∀ o, loads (dumps o) = o) →
  Forall (λ row, length row = w) rows → max_row = None ∨ max_row = Some (zlen rows) →
  0 <= hri → rows !! Z.to_nat hri = Some header → 0 < limit → zlen rows <= limit →
  Forall (Forall (λ v, cleaned v = v ∧ storable (λ o, zlen (dumps o)) v)) rows →
  ∃ t t' : table string (xcell O) T, excel_reader ty ps str dumps loads rows max_row true hri None SkipNone 0 limit = Ok t ∧
    ods_reader ty ps str rows true hri None SkipNone 0 limit = Ok t' ∧ contents t = contents t'.
Proof. exact (readers_agree ty ps str dumps loads rows w max_row hri limit header). Qed.
Example C93_agree_case :
  let rows := [[XStr [97]; XNone]; [XInt 1; XInt (-2)]; [XStr []; XNone]] : list (list (xcell unit)) in
  Forall (λ row, length row = 2%nat) rows ∧ Forall (Forall (λ v, cleaned v = v ∧ storable (λ _, 0) v)) rows.
Proof. cbv zeta. split; repeat constructor; cbn; lia. Qed.
Print Assumptions C93_agree_refuted.
Print Assumptions C93_agree_partial.

(** ** C94: [calc_col_count] gives every column its number, and different columns different numbers. *)
Theorem C94_letters n : calc_col_count (column_name n) = Z.of_nat n + 1.
Proof. exact (count_name n). Qed.
Theorem C94_all_letters s : s ≠ [] → Forall (λ c, 65 <= c <= 90) s →
  ∃ n, s = column_name n ∧ calc_col_count s = Z.of_nat n + 1.
Proof. exact (count_onto s). Qed.
Example C94_letters_case : calc_col_count [65; 65] = 27 ∧ calc_col_count [88; 70; 68] = 16384.
Proof. by vm_compute. Qed.
Print Assumptions C94_letters.
Print Assumptions C94_all_letters.

(** The size found by [calc_true_dims] is the least one that has all cells named in the sheet. *)
Theorem C94_dims (cells : list (nat * Z)) refs : Forall2 (λ p s, reference p.1 p.2 s) cells refs → Forall (λ p, 1 <= p.2) cells →
  ∃ w h, calc_true_dims (map Some refs) = Ok (w, h) ∧ (∀ p, p ∈ cells → Z.of_nat p.1 < w ∧ p.2 <= h) ∧
    (cells = [] → w = 0 ∧ h = 0) ∧ (cells ≠ [] → (∃ p, p ∈ cells ∧ Z.of_nat p.1 + 1 = w) ∧ ∃ p, p ∈ cells ∧ p.2 = h).
Proof. exact (dims_spec cells refs). Qed.
Example C94_dims_case :
  calc_true_dims [Some [66; 49; 50]; Some [65; 65; 55]] = Ok (27, 12) ∧ reference 26 7 [65; 65; 55] ∧
  fixup_worksheet (Some (1, 1)) Some [Some [66; 49]; None] = Some (1, 1).
Proof.
  split; [by vm_compute|]. split; [|by vm_compute]. exists [55]. split; [by vm_compute|].
  split; [done|]. split; [|by vm_compute]. repeat constructor; lia.
Qed.
Print Assumptions C94_dims.
