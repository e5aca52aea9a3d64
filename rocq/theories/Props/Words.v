(** C100: lines of text cut into words. *)
From Coq Require Import String.
From Verif.Spec Require Import Words.
From Verif.Model Require Import Words.
From Verif.Proof Require Import WordsProofs.
Local Open Scope string_scope.
Local Open Scope list_scope.
Local Open Scope Z_scope.

(** C100: a [TextEscape] called with a line returns the words of the line: those between the delimiters, and with a
    quote those written with quotes and backslashes; delimiters within brackets do not count.
    [split_by_sequence] cuts a text at its separators.  False in general: see below. *)

(** Exactly the cut at the leftmost occurrence of each separator, which glued together is the text again; ValueError
    exactly if the text cannot be cut at all. *)
Theorem C100_sequence text sequence :
  match split_by_sequence text sequence with
  | Ok chunks => leftmost sequence chunks text ∧ glued sequence chunks text
  | Err e => e = ValueError ∧ ¬ ∃ chunks, glued sequence chunks text
  end.
Proof. exact (split_spec text sequence). Qed.
Example C100_sequence_case :
  split_by_sequence (bytes_of "a, b;c;d") [bytes_of ", "; bytes_of ";"] =
    Ok [bytes_of "a"; bytes_of "b"; bytes_of "c;d"] ∧
  split_by_sequence (bytes_of "a;b") [bytes_of ";"; bytes_of ";"] = Err ValueError.
Proof. by vm_compute. Qed.
Print Assumptions C100_sequence.

(** The cut is the only one of its kind. *)
Theorem C100_sequence_unique text sequence chunks chunks' :
  leftmost sequence chunks text → leftmost sequence chunks' text → chunks = chunks'.
Proof. exact (leftmost_unique text sequence chunks chunks'). Qed.
Example C100_sequence_unique_case : leftmost [[44]] [[97]; [98; 44]] [97; 44; 98; 44].
Proof. apply split_leftmost. by vm_compute. Qed.
Print Assumptions C100_sequence_unique.

(** Without a quote: no word holds the delimiter, and joined with it the words are the line. *)
Theorem C100_split o c q d s :
  q = None ∨ q = Some [] ∧ o = None ∧ c = None → d ≠ [] →
  ∃ ws, text_escape o c q d false s = Ok ws ∧ joined d ws = s ∧ Forall (λ w, ¬ occurs d w) ws.
Proof. exact (escape_split o c q d s). Qed.
Example C100_split_case :
  text_escape None None None (bytes_of "::") false (bytes_of "a::b:::c::") =
    Ok [bytes_of "a"; bytes_of "b"; bytes_of ":c"; []].
Proof. by vm_compute. Qed.
Print Assumptions C100_split.

(** Words without the delimiter come back from their line, for delimiters of one character. *)
Theorem C100_joined o c q d ws :
  q = None ∨ q = Some [] ∧ o = None ∧ c = None → ws ≠ [] → Forall (λ w, d ∉ w) ws →
  text_escape o c q [d] false (joined [d] ws) = Ok ws.
Proof. exact (words_back o c q d ws). Qed.
Example C100_joined_case :
  text_escape (Some []) (Some []) None [59] false (joined [59] [bytes_of "a"; []; bytes_of "b c"]) =
    Ok [bytes_of "a"; []; bytes_of "b c"].
Proof. by vm_compute. Qed.
Print Assumptions C100_joined.

(** With stripping: the same words without the spaces at their ends. *)
Theorem C100_strip o c q d s :
  q = None ∨ q = Some [] ∧ o = None ∧ c = None → d ≠ [] →
  ∃ ws ts, text_escape o c q d true s = Ok ts ∧ joined d ws = s ∧ Forall (λ w, ¬ occurs d w) ws ∧
           Forall2 unspaced ws ts.
Proof. exact (escape_strip o c q d s). Qed.
Example C100_strip_case :
  text_escape None None None [44] true (bytes_of " a ,b c,  ") = Ok [bytes_of "a"; bytes_of "b c"; []].
Proof. by vm_compute. Qed.
Print Assumptions C100_strip.

(** With a quote the words come back from every line they can be written in, alone or with further lines behind it
    (these are not returned), whatever the brackets and with stripping or without. *)
Theorem C100_quoted_partial o c d q strip ws line records lines :
  good_marks d q → brackets_ok o c [q] → line_of d q ws line → Forall2 (line_of d q) records lines →
  text_escape o c (Some [q]) [d] strip line = Ok ws ∧
  text_escape o c (Some [q]) [d] strip (concat (map (λ l, l ++ [10]) (line :: lines))) = Ok ws.
Proof. exact (lines_words o c d q strip ws line records lines). Qed.
Example C100_quoted_case :
  good_marks 44 34 ∧ brackets_ok (Some (bytes_of "({[")) (Some (bytes_of "]})")) [34] ∧
  line_of 44 34 [[97; 34]; [98; 44; 99]] [97; 34; 44; 34; 98; 44; 92; 99; 34] ∧
  text_escape (Some (bytes_of "({[")) (Some (bytes_of "]})")) (Some [34]) [44] false [97; 34; 44; 34; 98; 44; 92; 99; 34]
    = Ok [[97; 34]; [98; 44; 99]].
Proof. exact quoted_case. Qed.
Print Assumptions C100_quoted_partial.

(** Every list of words can be written. *)
Theorem C100_writable d q ws : ws ≠ [] → ∃ line, line_of d q ws line.
Proof. exact (line_exists d q ws). Qed.
Example C100_writable_case : [[10; 34; 92; 44]; []] ≠ ([] : list (list Z)).
Proof. done. Qed.
Print Assumptions C100_writable.

(** With a quote, the empty line raises IndexError where it has the one empty word without; no other line does. *)
Theorem C100_empty o c d q strip s :
  brackets_ok o c [q] → (text_escape o c (Some [q]) [d] strip s = Err IndexError ↔ s = []).
Proof. exact (empty_line o c d q strip s). Qed.
Example C100_empty_case :
  brackets_ok None None [34] ∧ text_escape None None (Some [34]) [44] false [] = Err IndexError ∧
  text_escape None None None [44] false [] = Ok [[]].
Proof. by vm_compute. Qed.
Print Assumptions C100_empty.

(** A quote that is not closed takes the rest of the text, line ends and delimiters too. *)
Theorem C100_unclosed o c d q strip w :
  good_marks d q → brackets_ok o c [q] → Forall (λ x, x ≠ q ∧ x ≠ 92) w →
  text_escape o c (Some [q]) [d] strip (q :: w) = Ok [w].
Proof. exact (unclosed_quote o c d q strip w). Qed.
Example C100_unclosed_case :
  text_escape None None (Some [34]) [44] false [34; 97; 44; 98; 10; 99] = Ok [[97; 44; 98; 10; 99]] ∧
  text_escape None None (Some [34]) [44] false [97; 44; 34; 98] = Ok [[97]; [98]].
Proof. by vm_compute. Qed.
Print Assumptions C100_unclosed.

(** Delimiters within brackets count: a bracketed word is cut. *)
Theorem C100_brackets_refuted :
  ¬ ∀ o c q d s w, brackets_ok (Some [o]) (Some [c]) [q] → good_marks d q → d ≠ o → d ≠ c →
      s = [o] ++ w ++ [c] → Forall (λ x, x ≠ o ∧ x ≠ c ∧ x ≠ q ∧ x ≠ 92 ∧ x ≠ 10 ∧ x ≠ 13) w →
      text_escape (Some [o]) (Some [c]) (Some [q]) [d] false s = Ok [s].
Proof. exact brackets_cut. Qed.
Print Assumptions C100_brackets_refuted.

(** Stripping has no effect with a quote. *)
Theorem C100_strip_refuted :
  ¬ ∀ d q s ts, good_marks d q → text_escape None None (Some [q]) [d] true s = Ok ts →
      Forall (λ t, head t ≠ Some 32) ts.
Proof. exact quote_no_strip. Qed.
Print Assumptions C100_strip_refuted.

(** [get_delimiter] judges the first twelve lines: the most frequent separator, of several the greatest character;
    without one the blank, then the line feed; ValueError exactly if there is neither. *)
Theorem C100_delimiter order lines :
  order ≡ₚ separators →
  match get_delimiter order lines with
  | Ok c => chief_separator (join_lines (take 12 lines)) c ∨ blank_separator (join_lines (take 12 lines)) c
  | Err e => e = ValueError ∧
      ∀ c, ¬ chief_separator (join_lines (take 12 lines)) c ∧ ¬ blank_separator (join_lines (take 12 lines)) c
  end.
Proof. exact (get_delimiter_spec order lines). Qed.
Example C100_delimiter_case :
  get_delimiter separators [bytes_of "a;b,c"; bytes_of "1;2,5;3"] = Ok 59 ∧
  get_delimiter separators (repeat (bytes_of "ab") 2) = Ok 10 ∧
  get_delimiter separators [bytes_of "ab"] = Err ValueError ∧ get_delimiter separators [] = Err ValueError.
Proof. by vm_compute. Qed.
Print Assumptions C100_delimiter.
