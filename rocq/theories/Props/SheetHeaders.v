(** C98: the headers and first lines of a sheet shown before the import. *)
From Coq Require Import String.
From Verif.Proof Require Import SheetHeadersProofs.
From Verif.Model Require Import SheetHeaders.
Local Open Scope string_scope.
Local Open Scope list_scope.
Local Open Scope Z_scope.

(** C98, full claim: of a sheet with [linecount] rows or more from the row of headers on the first [linecount] are shown, of a shorter
    one all; the first line has the names that the import gives the columns.  False: one line more of a workbook than of an ODS file,
    and [None] for each row missing at the end if there are rows above the headers. *)
Theorem C98_lines_refuted :
  let rows := [[XInt 1]; [XInt 2]; [XInt 3]] : list (list (xcell unit)) in
  let excel hri n := excel_lines (λ _, []) None rows (Some (3, 1)) hri n in
  excel 0 1 = Ok [Some [SInt 1]; Some [SInt 2]] ∧ ods_lines (λ _, []) None rows 0 1 = Ok [[SInt 1]] ∧
  excel 2 10 = Ok [Some [SInt 3]; None; None] ∧ ods_lines (λ _, []) None rows 2 10 = Ok [[SInt 3]].
Proof. by vm_compute. Qed.
Print Assumptions C98_lines_refuted.

(** Nor are the names always those of the import: a header that is a number is shown as a number, a time in the form of ISO 8601 instead
    of that of [str], and a column without values in the lines shown is left out. *)
Theorem C98_names_refuted :
  let str := λ v : xcell unit, match v with XInt _ => "5" | XObj _ => "2020-01-01 00:00:00" | _ => "?" end in
  let rows := [[XInt 5; XObj tt; XNone]; [XNone; XNone; XNone]; [XInt 1; XInt 2; XInt 3]] in
  let iso := λ _ : unit, [50; 48; 50; 48; 45; 48; 49; 45; 48; 49; 84; 48; 48; 58; 48; 48; 58; 48; 48] in
  excel_lines iso None rows (Some (3, 3)) 0 1 = Ok [Some [SInt 5; SStr (iso tt)]; Some [SNull; SNull]] ∧
  res_map (map fst) (excel_reader (λ _, tt) 2 str (λ _, []) (λ _, tt) rows (Some 3) true 0 None SkipNone 0 10)
    = Ok ["5"; "2020-01-01 00:00:00"; ""].
Proof. by vm_compute. Qed.
Print Assumptions C98_names_refuted.

(** What is shown of every sheet of known size: the rows from the headers on, at most [linecount + 1], up to the last column with a
    value in one of them; then [None] up to the number of rows of the sheet.  It fails only for values that have no JSON. *)
Theorem C98_excel_partial {O} iso other (rows : list (list (xcell O))) w hri linecount :
  Forall (λ row, length row = w) rows → 0 <= hri → 0 <= linecount →
  let n := Z.to_nat (Z.min (zlen rows) (linecount + 1)) in
  let visible := take n (drop (Z.to_nat hri) rows) in
  let result := excel_lines iso other rows (Some (zlen rows, Z.of_nat w)) hri linecount in
  (∃ k lines, used_width visible k ∧ Forall2 (λ row line, Forall2 (shows iso other) (map cleaned (take k row)) line) visible lines ∧
    result = Ok (map Some lines ++ replicate (n - length visible) None)) ∨
  (result = Err TypeError ∧ ¬ Forall (Forall (λ v, ∃ s, shows iso other v s)) visible).
Proof. exact (excel_lines_spec iso other rows w hri linecount). Qed.
Example C98_excel_case :
  let rows := [[XStr [120]; XNone; XNone]; [XStr [97]; XStr [98; 10; 99]; XNone]; [XInt 1; XNone; XNone]; [XNone; XBool true; XNone]; [XNone; XNone; XInt 3]]
    : list (list (xcell unit)) in
  let visible := take 3 (drop 1 rows) in
  excel_lines (λ _, []) None rows (Some (5, 3)) 1 2
    = Ok [Some [SStr [97]; SStr [98; 99]]; Some [SInt 1; SNull]; Some [SNull; SStr [84; 114; 117; 101]]] ∧
  used_width visible 2.
Proof.
  split; [by vm_compute|]. split.
  - intros row i v Hin Hi Hv. cbn in Hin. repeat (apply elem_of_cons in Hin as [->|Hin]); [..|by apply elem_of_nil in Hin];
      (destruct i as [|[|[|i]]]; [lia|lia|injection Hi as <-; done|done]).
  - intros _. eexists [XStr [97]; XStr [98; 10; 99]; XNone], _. split; [by left|]. by split.
Qed.
Print Assumptions C98_excel_partial.

(** A sheet of unknown size, which can be imported (C93), cannot be shown. *)
Theorem C98_unsized_refuted {O} iso other (row : list (xcell O)) rows linecount : Forall (λ v, ∃ s, shows iso other v s) row →
  excel_lines iso other (row :: rows) None 0 linecount = Err IndexError.
Proof. exact (unsized_rows iso other row rows linecount). Qed.
Example C98_unsized_case : Forall (λ v : xcell unit, ∃ s, shows (λ _, []) None v s) [XInt 1; XNone].
Proof. repeat constructor; by eexists. Qed.
Print Assumptions C98_unsized_refuted.

(** An ODS sheet: exactly the rows asked for. *)
Theorem C98_ods {O} iso other (data : list (list (xcell O))) hri linecount : 0 <= hri → 0 <= linecount →
  let visible := take (Z.to_nat linecount) (drop (Z.to_nat hri) data) in
  (∃ lines, Forall2 (Forall2 (shows iso other)) visible lines ∧ ods_lines iso other data hri linecount = Ok lines) ∨
  (ods_lines iso other data hri linecount = Err TypeError ∧ ¬ Forall (Forall (λ v, ∃ s, shows iso other v s)) visible).
Proof. exact (ods_lines_spec iso other data hri linecount). Qed.
Example C98_ods_case :
  ods_lines (λ _ : unit, []) None [[XInt 0]; [XStr [97]; XStr []]; [XFloat 7; XBool false]; [XOther]] 1 2
    = Ok [[SStr [97]; SStr []]; [SFloat 7; SStr [70; 97; 108; 115; 101]]] ∧
  ods_lines (λ _ : unit, []) None [[XInt 0]; [XOther]] 0 2 = Err TypeError.
Proof. by vm_compute. Qed.
Print Assumptions C98_ods.

(** Headers that are texts or missing: the names shown, filled with empty ones and equal ones made different, are the names of the
    imported columns; for every part of the rows imported and every number of lines shown. *)
Theorem C98_import_partial {O T} `{EqDecision O, EqDecision T} (ty : xcell O → T) ps (str : xcell O → string) text iso other dumps loads
    (rows : list (list (xcell O))) w max_row hri s start limit header linecount line rest (t : table string (xcell O) T) :
  0 < ps → (∀ s, str (XStr s) = text s) → (∀ o, loads (dumps o) = o) →
  Forall (λ row, length row = w) rows → max_row = None ∨ max_row = Some (zlen rows) →
  Forall (Forall (λ v, ∀ f, v = XFloat f → 0 <= f < 2 ^ 64)) rows →
  0 <= hri → rows !! Z.to_nat hri = Some header → Forall text_header header → 0 <= start → 0 < limit → 0 <= linecount →
  excel_reader ty ps str dumps loads rows max_row true hri None s start limit = Ok t →
  excel_lines iso other rows (Some (zlen rows, Z.of_nat w)) hri linecount = Ok (line :: rest) →
  ∃ cells names, line = Some cells ∧ mapM (header_name text) cells = Some names ∧
    dedup_headers (names ++ replicate (w - length names) "") = Some (contents t).*1.
Proof. exact (λ Hps Ht, excel_names ty ps Hps str text Ht iso other dumps loads rows w max_row hri s start limit header linecount line rest t). Qed.
Example C98_import_case :
  let str := λ v : xcell unit, match v with XStr [97] => "a" | XStr _ => "b" | _ => "?" end in
  let rows := [[XNone; XInt 1; XNone]; [XStr [97]; XStr [97; 9]; XNone]; [XInt 1; XNone; XNone]] in
  res_map contents (excel_reader (λ _, tt) 2 str (λ _, []) (λ _, tt) rows None true 1 None SkipNone 0 10)
    = Ok [("a", [XInt 1]); ("a_1", [XNone]); ("", [XNone])] ∧
  excel_lines (λ _, []) None rows (Some (3, 3)) 1 1 = Ok [Some [SStr [97]; SStr [97]]; Some [SInt 1; SNull]] ∧
  Forall text_header [XStr [97]; XStr [97; 9]; XNone : xcell unit].
Proof. split_and!; [by vm_compute|by vm_compute|]. by repeat constructor. Qed.
Print Assumptions C98_import_partial.

(** The same for ODS, where pyexcel gives the lines and pandas the values imported: the one has an empty text where the other has [None]
    and leaves out empty cells at the end. *)
Theorem C98_ods_import_partial {O T} `{EqDecision O, EqDecision T} (ty : xcell O → T) ps (str : xcell O → string) text iso other
    (data : list (list (xcell O))) w hri s start limit header (pdata : list (list (xcell O))) m pheader linecount lines :
  0 < ps → (∀ s, str (XStr s) = text s) → text [] = "" →
  Forall (λ row, length row = w) data → 0 <= hri → data !! Z.to_nat hri = Some header → Forall text_header header →
  0 <= start → 0 < limit → 0 < linecount →
  pdata !! Z.to_nat hri = Some pheader →
  Forall2 (λ p q, p = q ∨ p = XStr [] ∧ q = XNone) pheader (take m header) → Forall (λ v, v = XNone) (drop m header) →
  ods_lines iso other pdata hri linecount = Ok lines →
  ∃ (t : table string (xcell O) T) cells rest names, ods_reader ty ps str data true hri None s start limit = Ok t ∧ lines = cells :: rest ∧
    mapM (header_name text) cells = Some names ∧
    dedup_headers (names ++ replicate (w - length names) "") = Some (contents t).*1.
Proof.
  exact (λ Hps Ht He H1 H2 H3 H4 H5 H6 H7 H8 H9 H10, ods_names ty ps Hps str text Ht iso other data w hri s start limit header pdata m pheader
    linecount H1 H2 H3 H4 H5 H6 H7 H8 H9 H10 He lines).
Qed.
Example C98_ods_import_case :
  let str := λ v : xcell unit, match v with XStr [97] => "a" | XStr [] => "" | _ => "?" end in
  res_map (map fst) (ods_reader (λ _, tt) 2 str [[XStr [97]; XNone; XStr [97]; XNone]; [XInt 1; XInt 2; XInt 3; XInt 4]] true 0 None SkipNone 0 10)
    = Ok ["a"; ""; "a_1"; "_1"] ∧
  ods_lines (λ _ : unit, []) None [[XStr [97]; XStr []; XStr [97]]; [XInt 1; XInt 2; XInt 3; XInt 4]] 0 1 = Ok [[SStr [97]; SStr []; SStr [97]]].
Proof. by vm_compute. Qed.
Print Assumptions C98_ods_import_partial.

(** Every sheet has its lines under its name, and there is an entry for the delimiter.  False for a sheet of the name "delimiter". *)
Theorem C98_book_refuted :
  excel_reader_headers (λ _ : unit, []) None [("delimiter", ([[XInt 1]], Some (1, 1)))] 0 10 = Ok [("delimiter", None)] ∧
  ods_reader_headers (λ _ : unit, []) None [("delimiter", [[XInt 1]])] 0 10 = Ok [("delimiter", Some [[SInt 1]])].
Proof. by vm_compute. Qed.
Theorem C98_excel_book_partial {O} iso other (sheets : list (string * (list (list (xcell O)) * option (Z * Z)))) hri linecount : NoDup sheets.*1 →
  match excel_reader_headers iso other sheets hri linecount with
  | Ok d =>
      (∀ name rows dims, (name, (rows, dims)) ∈ sheets → name ≠ "delimiter" →
        ∃ lines, excel_lines iso other rows dims hri linecount = Ok lines ∧ dget d name = Some (Some lines)) ∧
      (sheets ≠ [] → dget d "delimiter" = Some None) ∧
      (∀ name, name ∉ sheets.*1 → name ≠ "delimiter" → dget d name = None)
  | Err e => ∃ name rows dims, (name, (rows, dims)) ∈ sheets ∧ excel_lines iso other rows dims hri linecount = Err e
  end.
Proof. exact (excel_book_result iso other sheets hri linecount). Qed.
Theorem C98_ods_book_partial {O} iso other (sheets : list (string * list (list (xcell O)))) hri linecount : NoDup sheets.*1 →
  match ods_reader_headers iso other sheets hri linecount with
  | Ok d =>
      (∀ name data, (name, data) ∈ sheets →
        ∃ lines, ods_lines iso other data hri linecount = Ok lines ∧ dget d name = Some (Some lines)) ∧
      ("delimiter" ∉ sheets.*1 → dget d "delimiter" = Some None) ∧
      (∀ name, name ∉ sheets.*1 → name ≠ "delimiter" → dget d name = None)
  | Err e => ∃ name data, (name, data) ∈ sheets ∧ ods_lines iso other data hri linecount = Err e
  end.
Proof. exact (ods_book_result iso other sheets hri linecount). Qed.
Example C98_book_case :
  let sheets := [("x", ([[XStr [97]]; [XInt 1]], Some (2, 1))); ("y", ([], Some (0, 0)))] : list (string * (list (list (xcell unit)) * option (Z * Z))) in
  NoDup sheets.*1 ∧ excel_reader_headers (λ _, []) None sheets 0 0
    = Ok [("x", Some [Some [SStr [97]]]); ("delimiter", None); ("y", Some [])].
Proof. split; [|by vm_compute]. cbn. by repeat (constructor; [set_solver|]); constructor. Qed.
Print Assumptions C98_book_refuted.
Print Assumptions C98_excel_book_partial.
Print Assumptions C98_ods_book_partial.
