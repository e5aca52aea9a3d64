(** Proofs about Model/FileWrites.v. *)
From Coq Require Import String.
From stdpp Require Import strings.
From Verif.Model Require Import FileWrites.
Local Open Scope string_scope.
Local Open Scope list_scope.
Local Open Scope Z_scope.

Lemma put_same f p t : put f p t p = Some t.
Proof. unfold put. by rewrite decide_True. Qed.
Lemma put_other f p t q : q ≠ p → put f p t q = f q.
Proof. intros ?. unfold put. by rewrite decide_False. Qed.

(** texts that are all there, then perhaps one that raises *)
Lemma write_all_spec p (good : list (list Z)) (rest : list (res (list Z))) : (rest = [] ∨ ∃ e rest', rest = Err e :: rest') →
  ∀ f t, f p = Some t →
  (write_all f p (map Ok good ++ rest)).1 p = Some (t ++ concat good) ∧
  (write_all f p (map Ok good ++ rest)).2 = match rest with Err e :: _ => Err e | _ => Ok tt end ∧
  ∀ q, q ≠ p → (write_all f p (map Ok good ++ rest)).1 q = f q.
Proof.
  intros Hrest. induction good as [|g good IH]; intros f t Hf; cbn.
  - rewrite app_nil_r. destruct Hrest as [->|(e & rest' & ->)]; cbn; done.
  - destruct (IH (put f p (default [] (f p) ++ g)) (t ++ g)) as (H1 & H2 & H3).
    { rewrite put_same, Hf. done. }
    split_and!; [|done|].
    + rewrite H1. by rewrite <- app_assoc.
    + intros q Hq. rewrite H3 by done. by apply put_other.
Qed.

Lemma write_all_others p texts : ∀ f q, q ≠ p → (write_all f p texts).1 q = f q.
Proof.
  induction texts as [|[t|e] texts IH]; intros f q Hq; cbn; [done| |done].
  rewrite IH by done. by apply put_other.
Qed.

Section proofs.
  Context (directory : string → bool) (suffix : string → string) (fshow : Z → list Z).
  Notation text_of d names rows := (writerow d (map bytes_of names) ++ concat (map (λ row, writerow d (map (txt fshow) row)) rows)).

  Lemma txts_known row : txts_of fshow (map Known row) = Ok (map (txt fshow) row).
  Proof. induction row as [|v row IH]; cbn; [done|]. rewrite IH. done. Qed.
  Lemma txts_refused row : Refused ∈ row → txts_of fshow row = Err TypeError.
  Proof.
    induction row as [|v row IH]; intros H; [by apply elem_of_nil in H|]. apply elem_of_cons in H as [<-|H]; cbn; [done|].
    destruct v; cbn; [|done]. rewrite IH by done. done.
  Qed.

  Lemma rows_texts d rows : map (λ row, res_map (writerow d) (txts_of fshow row)) (map (map Known) rows) =
    map Ok (map (λ row, writerow d (map (txt fshow) row)) rows).
  Proof.
    rewrite !map_map. apply map_ext. intros row. rewrite txts_known. done.
  Qed.

  Lemma check_ok p kind : suffix p = kind → directory p = true → path_suffix_check directory suffix p kind = Ok tt.
  Proof. intros H1 H2. unfold path_suffix_check. rewrite bool_decide_true by done. rewrite H2. done. Qed.

  Lemma text_written kind d f p names rows : suffix p = kind → directory p = true → delimiter_of kind = Some d →
    (to_text_file directory suffix fshow kind f p names (map (map Known) rows)).2 = Ok tt ∧
    all_or_nothing f p (text_of d names rows) (to_text_file directory suffix fshow kind f p names (map (map Known) rows)).
  Proof.
    intros H1 H2 H3. unfold to_text_file. rewrite check_ok by done. unfold text_writer_file. rewrite H1, H3.
    unfold with_open_w. rewrite H2, rows_texts.
    destruct (write_all_spec p (writerow d (map bytes_of names) :: map (λ row, writerow d (map (txt fshow) row)) rows) [] (or_introl eq_refl)
      (put f p []) [] (put_same _ _ _)) as (W1 & W2 & W3). rewrite app_nil_r in W1, W2, W3. cbn [map] in W1, W2, W3.
    split; [exact W2|]. unfold all_or_nothing. destruct (write_all _ _ _) as [f' r]. cbn [fst snd] in *. subst r. split.
    - exact W1.
    - intros q Hq. rewrite W3 by done. by apply put_other.
  Qed.

  Lemma text_exported {T} kind d f p (t : table string cell T) rows text : suffix p = kind → directory p = true →
    delimiter_of kind = Some d → tbl_rows CNone t = Ok rows → text_writer fshow d t = Ok text →
    (to_text_file directory suffix fshow kind f p t.*1 (map (map Known) rows)).2 = Ok tt ∧
    (to_text_file directory suffix fshow kind f p t.*1 (map (map Known) rows)).1 p = Some text.
  Proof.
    intros H1 H2 H3 H4 H5. unfold text_writer in H5. rewrite H4 in H5. injection H5 as <-.
    destruct (text_written kind d f p t.*1 rows H1 H2 H3) as [Hr [Hf _]]. rewrite Hr in Hf. done.
  Qed.

  Lemma text_cut kind d f p names rows row rest : suffix p = kind → directory p = true → delimiter_of kind = Some d →
    Refused ∈ row →
    (to_text_file directory suffix fshow kind f p names (map (map Known) rows ++ row :: rest)).2 = Err TypeError ∧
    (to_text_file directory suffix fshow kind f p names (map (map Known) rows ++ row :: rest)).1 p = Some (text_of d names rows) ∧
    ∀ q, q ≠ p → (to_text_file directory suffix fshow kind f p names (map (map Known) rows ++ row :: rest)).1 q = f q.
  Proof.
    intros H1 H2 H3 H4. unfold to_text_file. rewrite check_ok by done. unfold text_writer_file. rewrite H1, H3.
    unfold with_open_w. rewrite H2, map_app, rows_texts. cbn [map]. rewrite txts_refused by done. cbn [res_map].
    destruct (write_all_spec p (writerow d (map bytes_of names) :: map (λ row, writerow d (map (txt fshow) row)) rows)
      (Err TypeError :: map (λ row, res_map (writerow d) (txts_of fshow row)) rest) (or_intror (ex_intro _ _ (ex_intro _ _ eq_refl)))
      (put f p []) [] (put_same _ _ _)) as (W1 & W2 & W3). cbn [map app] in W1, W2, W3.
    split_and!; [exact W2|exact W1|]. intros q Hq. rewrite W3 by done. by apply put_other.
  Qed.

  Lemma check_first kind f p names rows e : path_suffix_check directory suffix p kind = Err e →
    to_text_file directory suffix fshow kind f p names rows = (f, Err e).
  Proof. intros H. unfold to_text_file. rewrite H. done. Qed.
  Lemma check_fails p kind : (suffix p ≠ kind ∨ directory p = false) ↔ is_Some (match path_suffix_check directory suffix p kind with Err e => Some e | Ok _ => None end).
  Proof.
    unfold path_suffix_check. destruct (decide (suffix p = kind)) as [H|H].
    - rewrite bool_decide_true by done. cbn. destruct (directory p); cbn; split; [by intros [?|?]|by intros [??]|by eexists|by right].
    - rewrite bool_decide_false by done. cbn. split; [by eexists|by left].
  Qed.
  Lemma bad_path kind f p names rows : suffix p ≠ kind ∨ directory p = false →
    ∃ e, to_text_file directory suffix fshow kind f p names rows = (f, Err e).
  Proof.
    intros H. apply check_fails in H. destruct (path_suffix_check directory suffix p kind) as [|e] eqn:E; [by destruct H|].
    exists e. by apply check_first.
  Qed.

  (** without [to_csv] and its like *)
  Lemma no_delimiter f p names rows : delimiter_of (suffix p) = None → directory p = true →
    (text_writer_file directory suffix fshow f p names rows).1 p = Some [] ∧
    (text_writer_file directory suffix fshow f p names rows).2 = Err TypeError.
  Proof. intros H1 H2. unfold text_writer_file. rewrite H1. unfold with_open_w. rewrite H2. cbn. by rewrite put_same. Qed.

  Lemma one_text f p text : directory p = true →
    (with_open_w directory f p [text]).1 p = Some (match text with Ok t => t | Err _ => [] end) ∧
    (with_open_w directory f p [text]).2 = res_map (λ _, tt) text ∧
    ∀ q, q ≠ p → (with_open_w directory f p [text]).1 q = f q.
  Proof.
    intros H. unfold with_open_w. rewrite H. destruct text as [t|e]; cbn.
    - rewrite !put_same. split_and!; [done|done|]. intros q Hq. rewrite !put_other by done. done.
    - rewrite put_same. split_and!; [done|done|]. intros q Hq. by rewrite put_other.
  Qed.
  Lemma html_bad_path f p html : suffix p ≠ ".html" ∨ directory p = false → ∃ e, to_html_file directory suffix f p html = (f, Err e).
  Proof.
    intros H. apply check_fails in H. unfold to_html_file. destruct (path_suffix_check directory suffix p ".html") as [|e]; [by destruct H|].
    by exists e.
  Qed.
  Lemma html_written f p html : suffix p = ".html" → directory p = true →
    (to_html_file directory suffix f p html).1 p = Some (match html with Ok t => t | Err _ => [] end) ∧
    (to_html_file directory suffix f p html).2 = res_map (λ _, tt) html ∧
    ∀ q, q ≠ p → (to_html_file directory suffix f p html).1 q = f q.
  Proof. intros H1 H2. unfold to_html_file. rewrite check_ok by done. by apply one_text. Qed.

  Lemma sql_empty {A} f p (table : Verif.Spec.Calls.value A) sql : directory p = true →
    (sql_writer directory f p table sql).1 p = Some [] ∧ (sql_writer directory f p table sql).2 = Err TypeError.
  Proof.
    intros H. unfold sql_writer.
    change (Verif.Model.Calls.do_call (Verif.Model.Calls.Call "export_utils.to_sql" [table] [])) with (@Err (string * Verif.Spec.Calls.binding A) TypeError).
    cbn [res_bind]. destruct (one_text f p (Err TypeError) H) as (H1 & H2 & _). done.
  Qed.
End proofs.

Lemma pandas_raises {D F} (import_pandas : res (D → res F)) table_dict : to_pandas import_pandas table_dict = Err UnboundLocalError.
Proof. done. Qed.
