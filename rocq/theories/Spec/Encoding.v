(** Encodings of text files.  A text is a list of Unicode code points, a file a list
    of bytes.  Knows nothing of tablite. *)
From Coq Require Import String.
From Verif.Spec Require Export Npy.
Local Open Scope Z_scope.

(** a code point that is a character: not a surrogate *)
Definition scalar (c : Z) : Prop := 0 <= c < 0xD800 ∨ 0xE000 <= c < 0x110000.
Global Instance scalar_dec c : Decision (scalar c).
Proof. unfold scalar. apply _. Defined.

(** the 16-bit units of a character *)
Definition utf16_units (c : Z) : list Z :=
  if c <? 0x10000 then [c]
  else [0xD800 + (c - 0x10000) / 1024; 0xDC00 + (c - 0x10000) mod 1024].

Definition unit_bytes (big : bool) (u : Z) : list Z :=
  if big then [u / 256; u mod 256] else [u mod 256; u / 256].

Definition utf16 (big : bool) (text : list Z) : list Z :=
  text ≫= λ c, utf16_units c ≫= unit_bytes big.

(** the byte order mark *)
Definition BOM : Z := 0xFEFF.

(** The characters of Windows-1252 between 0x80 and 0x9F. *)
Definition windows1252 : list (Z * Z) :=
  [(0x80, 0x20AC); (0x82, 0x201A); (0x83, 0x0192); (0x84, 0x201E); (0x85, 0x2026); (0x86, 0x2020);
   (0x87, 0x2021); (0x88, 0x02C6); (0x89, 0x2030); (0x8A, 0x0160); (0x8B, 0x2039); (0x8C, 0x0152);
   (0x8E, 0x017D); (0x91, 0x2018); (0x92, 0x2019); (0x93, 0x201C); (0x94, 0x201D); (0x95, 0x2022);
   (0x96, 0x2013); (0x97, 0x2014); (0x98, 0x02DC); (0x99, 0x2122); (0x9A, 0x0161); (0x9B, 0x203A);
   (0x9C, 0x0153); (0x9E, 0x017E); (0x9F, 0x0178)].

Inductive charset := UTF8 | UTF8_SIG | UTF16_LE | UTF16_BE | LATIN1 | WINDOWS1252.

Definition latin1_byte (c : Z) : option Z := if bool_decide (0 <= c < 256) then Some c else None.
Definition windows1252_byte (c : Z) : option Z :=
  if bool_decide (0 <= c < 0x80 ∨ 0xA0 <= c < 256) then Some c
  else option_map (λ found : nat * (Z * Z), found.2.1) (list_find (λ p : Z * Z, p.2 = c) windows1252).

(** The file of a text; [None] = the text has characters the encoding has not. *)
Definition encode (cs : charset) (text : list Z) : option (list Z) :=
  match cs with
  | UTF8 => Some (utf8 text)
  | UTF8_SIG => Some (utf8 (BOM :: text))
  | UTF16_LE => Some (utf16 false (BOM :: text))
  | UTF16_BE => Some (utf16 true (BOM :: text))
  | LATIN1 => mapM latin1_byte text
  | WINDOWS1252 => mapM windows1252_byte text
  end.

(** Python's names of the encodings *)
Definition charset_name (cs : charset) : string :=
  match cs with
  | UTF8 => "utf-8" | UTF8_SIG => "utf-8-sig" | UTF16_LE => "utf-16" | UTF16_BE => "utf-16"
  | LATIN1 => "ISO-8859-1" | WINDOWS1252 => "Windows-1252"
  end.

(** [convert name], if there is one, turns files in the encoding of that name into
    UTF-8. *)
Definition converts_to_utf8 (convert : string → option (list Z → list Z)) : Prop :=
  ∀ cs, cs = LATIN1 ∨ cs = WINDOWS1252 →
  ∃ f, convert (charset_name cs) = Some f ∧
    ∀ text bytes, encode cs text = Some bytes → f bytes = utf8 text.

(** A, the euro sign and a smiling face *)
Example encode_test1 : encode UTF8_SIG [0x41; 0x20AC] = Some [0xEF; 0xBB; 0xBF; 0x41; 0xE2; 0x82; 0xAC].
Proof. reflexivity. Qed.
Example encode_test2 : encode UTF16_LE [0x41; 0x20AC; 0x1F600]
  = Some [0xFF; 0xFE; 0x41; 0; 0xAC; 0x20; 0x3D; 0xD8; 0; 0xDE].
Proof. reflexivity. Qed.
Example encode_test3 : encode UTF16_BE [0x41; 0x20AC] = Some [0xFE; 0xFF; 0; 0x41; 0x20; 0xAC].
Proof. reflexivity. Qed.
Example encode_test4 : encode WINDOWS1252 [0x41; 0x20AC] = Some [0x41; 0x80] ∧ encode LATIN1 [0x41; 0x20AC] = None
  ∧ encode LATIN1 [0xE9; 0x41] = Some [0xE9; 0x41].
Proof. repeat split; reflexivity. Qed.
