(** The file format of numpy's one-dimensional arrays (version 1.0) and what its
    elements mean.  Knows nothing of tablite. *)
From Coq Require Import Ascii String.
From Verif.Spec Require Export ObjectPage.
Local Open Scope Z_scope.

(** the bytes of an ASCII text *)
Fixpoint ascii_bytes (s : string) : list Z :=
  match s with
  | EmptyString => []
  | String a s => Z.of_N (N_of_ascii a) :: ascii_bytes s
  end.

(** ** Numbers and texts *)
Definition digits_value (ds : list Z) : Z := fold_left (λ v d, 10 * v + (d - 48)) ds 0.

(** the decimal digits of [n], without superfluous zeros *)
Definition decimal (n : Z) (ds : list Z) : Prop :=
  ds ≠ [] ∧ Forall (λ d, 48 <= d <= 57) ds ∧ digits_value ds = n ∧ (head ds = Some 48 → ds = [48]).

Fixpoint value_le (bs : list Z) : Z :=
  match bs with [] => 0 | b :: bs => b + 256 * value_le bs end.

(** [bs] are the [k] bytes of [v] (two's complement), least significant byte
    first, or last if [big] *)
Definition word (big : bool) (k : nat) (v : Z) (bs : list Z) : Prop :=
  List.length bs = k ∧ Forall (λ b, 0 <= b < 256) bs
  ∧ value_le (if big then rev bs else bs) = v mod 256 ^ Z.of_nat k.

Definition code_point (c : Z) : Prop := 0 <= c < 0x110000.

Definition utf8_char (c : Z) : list Z :=
  if c <? 0x80 then [c]
  else if c <? 0x800 then [0xC0 + c / 64; 0x80 + c mod 64]
  else if c <? 0x10000 then [0xE0 + c / 4096; 0x80 + c / 64 mod 64; 0x80 + c mod 64]
  else [0xF0 + c / 262144; 0x80 + c / 4096 mod 64; 0x80 + c / 64 mod 64; 0x80 + c mod 64].

Definition utf8 (cs : list Z) : list Z := concat (map utf8_char cs).

(** the euro sign and a smiling face *)
Example utf8_test : utf8 [0x41; 0xE9; 0x20AC; 0x1F600]
  = [0x41; 0xC3; 0xA9; 0xE2; 0x82; 0xAC; 0xF0; 0x9F; 0x98; 0x80].
Proof. reflexivity. Qed.

(** ** Days since 1 January 1970 *)
(** days of the year before the month [m] *)
Definition month_start (y m : Z) : Z :=
  foldr Z.add 0 (map (month_days y) (seqZ 1 (m - 1))).

Definition epoch_days (d : ymd) : Z :=
  365 * (yy d - 1970) + (yy d - 1969) / 4 - (yy d - 1901) / 100 + (yy d - 1601) / 400
  + month_start (yy d) (mm d) + dd d - 1.

Example epoch_test1 : epoch_days (Ymd 1970 1 1) = 0. Proof. reflexivity. Qed.
Example epoch_test2 : epoch_days (Ymd 2000 3 1) = 11017. Proof. reflexivity. Qed.
Example epoch_test3 : epoch_days (Ymd 1969 12 31) = -1. Proof. reflexivity. Qed.
Example epoch_test4 : epoch_days (Ymd 2024 12 31) = 20088. Proof. reflexivity. Qed.

(** ** Types of elements *)
Inductive time_unit := Seconds | Milliseconds | Microseconds.

Inductive dtype :=
| TBool
| TInt (bytes : nat)
| TFloat (bytes : nat)
| TUnicode (chars : nat)
| TDays
| TTime (u : time_unit).

Definition unit_us (u : time_unit) : Z :=
  match u with Seconds => 1000000 | Milliseconds => 1000 | Microseconds => 1 end.

(** the type as numpy writes it, without the mark of the byte order; texts have
    at least one character, an element is below 2 GiB *)
Definition type_text (t : dtype) (text : list Z) : Prop :=
  match t with
  | TBool => text = ascii_bytes "b1"
  | TInt k => k ∈ [1; 2; 4; 8]%nat ∧ ∃ ds, decimal (Z.of_nat k) ds ∧ text = ascii_bytes "i" ++ ds
  | TFloat k => k ∈ [4; 8]%nat ∧ ∃ ds, decimal (Z.of_nat k) ds ∧ text = ascii_bytes "f" ++ ds
  | TUnicode n => 1 <= Z.of_nat n < 2 ^ 29 ∧ ∃ ds, decimal (Z.of_nat n) ds ∧ text = ascii_bytes "U" ++ ds
  | TDays => text = ascii_bytes "M8[D]"
  | TTime Seconds => text = ascii_bytes "M8[s]"
  | TTime Milliseconds => text = ascii_bytes "M8[ms]"
  | TTime Microseconds => text = ascii_bytes "M8[us]"
  end.

(** [<] and [|]: least significant byte first (or a single byte) *)
Definition order_mark (big : bool) (m : Z) : Prop :=
  if big then m = 62 else m = 60 ∨ m = 124.

(** [bs] are the bytes of the element [c] in an array of the type [t]; [widen]
    gives the bits of the 64-bit float equal to a 32-bit float.  A text is filled
    up with NUL, so that it cannot end with one. *)
Inductive stored (widen : Z → Z) (big : bool) : dtype → cell → list Z → Prop :=
| stored_bool b : stored widen big TBool (CBool b) [if b then 1 else 0]
| stored_int k z bs :
    - 2 ^ (8 * Z.of_nat k - 1) <= z < 2 ^ (8 * Z.of_nat k - 1) →
    word big k z bs → stored widen big (TInt k) (CInt z) bs
| stored_float8 bits bs :
    0 <= bits < 2 ^ 64 → word big 8 bits bs → stored widen big (TFloat 8) (CFloat bits) bs
| stored_float4 bits bs :
    0 <= bits < 2 ^ 32 → word big 4 bits bs → stored widen big (TFloat 4) (CFloat (widen bits)) bs
| stored_text n cs ws :
    Forall code_point cs → stdpp.list.last cs ≠ Some 0 → (List.length cs <= n)%nat →
    Forall2 (word big 4) (cs ++ repeat 0 (n - List.length cs)) ws →
    stored widen big (TUnicode n) (CStr (utf8 cs)) (concat ws)
| stored_date d bs :
    python_date d → word big 8 (epoch_days d) bs → stored widen big TDays (CDate d) bs
| stored_datetime u d us bs :
    python_date d → 0 <= us < us_per_day → us mod unit_us u = 0 →
    word big 8 ((epoch_days d * us_per_day + us) / unit_us u) bs →
    stored widen big (TTime u) (CDateTime d us) bs.

(** the end of the text of the header: numpy writes [, }] and fills up with
    blanks, other writers write [}] *)
Definition header_end (e : list Z) : Prop :=
  ∃ k, e = ascii_bytes ", }" ++ repeat 32 k ++ [10] ∨ e = ascii_bytes "}" ++ repeat 32 k ++ [10].

(** [header] describes an array of [n] elements of the type [text] *)
Definition npy_header (mark : Z) (text : list Z) (n : Z) (header : list Z) : Prop :=
  ∃ ds e, decimal n ds ∧ header_end e ∧
    header = ascii_bytes "{'descr': '" ++ mark :: text
             ++ ascii_bytes "', 'fortran_order': False, 'shape': (" ++ ds ++ ascii_bytes ",)" ++ e.

(** [file] has this header, which ends at a multiple of 64, and the bytes [data] *)
Definition npy_container (header data file : list Z) : Prop :=
  ∃ len, word false 2 (zlen header) len ∧ zlen header < 65536 ∧ (10 + zlen header) mod 64 = 0
    ∧ file = 0x93 :: ascii_bytes "NUMPY" ++ [1; 0] ++ len ++ header ++ data.

(** [file] is an array of the type [t] with the elements [cs] *)
Definition npy_file (widen : Z → Z) (big : bool) (t : dtype) (cs : list cell) (file : list Z) : Prop :=
  ∃ mark text header chunks,
    order_mark big mark ∧ type_text t text ∧ npy_header mark text (zlen cs) header ∧
    Forall2 (stored widen big t) cs chunks ∧ npy_container header (concat chunks) file.

(** a text that neither starts nor ends with the character NUL *)
Definition no_nul (c : cell) : Prop :=
  match c with
  | CStr t => head t ≠ Some 0 ∧ stdpp.list.last t ≠ Some 0
  | _ => True
  end.

(** the fraction of the second divided by 1000 *)
Definition shrunk (c : cell) : cell :=
  match c with
  | CDateTime d us => CDateTime d (us - fraction c + fraction c / 1000)
  | c => c
  end.

(** how many elements are of the kind [k] *)
Definition kind_count (cs : list cell) (k : kind) : Z := count_if (λ c, kind_of c = k) cs.
