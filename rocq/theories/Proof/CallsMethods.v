(** The methods of a table hand their arguments over. *)
From Coq Require Import String ssreflect.
From Verif.Spec Require Import Base Calls.
From Verif.Model Require Import Calls.
From Verif.Proof Require Import CallsProofs.
Local Open Scope string_scope.
Local Open Scope list_scope.
Local Open Scope Z_scope.

Ltac computed3 :=
  match goal with A : Type |- ∃ f s b, ?l = Ok (f, b) ∧ _ =>
    let r := eval vm_compute in l in
    match r with Ok (?f, ?b) =>
      let s := eval vm_compute in (entry (@function_table A) f) in
      match s with Some ?s => exists f, s, b; split; [vm_compute; reflexivity|] end end end.

Section final.
  Context {A : Type}.
  Notation V := (value A).
  Notation signature := (signature A).
  Notation binding := (binding A).

  Lemma methods_ok (m : method A) vs kws (c : binding) :
    m ∈ methods → me_name m ≠ "sort_index" →
    (me_name m = "drop" → bd_star c ≠ []) → "T" ∉ kws.*1 →
    bind_args (me_sig m) vs kws = Ok c →
    ∃ f s b, run_method m vs kws = Ok (f, b)
      ∧ (me_name m, f) ∈ implemented_by
      ∧ entry function_table f = Some s
      ∧ hands_over (me_sig m) c s b [].
  Proof.
    intros Hm Hs Hd HT Hc. rewrite /run_method Hc. cbn [res_bind].
    apply bind_shape in Hc as (Ha & Hst & Hkw & Htw & Hsub).
    destruct c as [args star kw]. cbn [bd_args bd_star bd_kw] in *.
    unfold methods in Hm. members; subst m; cbn in Ha, Hst, Hkw, Hs, Hd; shape.
    all: try (specialize (Hst eq_refl)); try (specialize (Hkw eq_refl)); subst.
    all: try done.
    all: try (computed3; split;
              [repeat (first [apply elem_of_list_here | apply elem_of_list_further])|];
              split; [reflexivity|]; handed).
    - eexists _, _, _. split; [apply any_call; [reflexivity|intros H; by apply HT, Hsub|done]|].
      split; [repeat (first [apply elem_of_list_here | apply elem_of_list_further])|].
      split; [reflexivity|]. handed.
    - eexists _, _, _. split; [apply any_call; [reflexivity|intros H; by apply HT, Hsub|done]|].
      split; [repeat (first [apply elem_of_list_here | apply elem_of_list_further])|].
      split; [reflexivity|]. handed.
    - destruct star as [|first star]; [by destruct (Hd eq_refl)|].
      eexists _, _, _. split; [reflexivity|].
      split; [repeat (first [apply elem_of_list_here | apply elem_of_list_further])|].
      split; [reflexivity|]. handed.
  Qed.

End final.
