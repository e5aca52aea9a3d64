(** C117: [Config.reset] brings the settings back.

    Full claim: whatever a program did to the settings, after [Config.reset()] each of them is what it was after the import.

    True for settings that are no lists, and for lists to which nothing was appended: reset puts the same list object back
    (C117_refuted). *)
From Coq Require Import String.
From stdpp Require Import strings.
From Verif.Model Require Import Settings.
From Verif.Proof Require Import SettingsProofs.
Local Open Scope string_scope.
Local Open Scope list_scope.
Local Open Scope Z_scope.

Theorem C117_reset_partial {A} (body : list (statement A)) ops i st : NoDup (map st_name body) → body !! i = Some st →
  String.prefix "__" (st_name st) = false → (∀ x, Append (st_name st) x ∉ ops) →
  getattr (reset body (run body ops)) (st_name st) = Ok (st_value st).
Proof. exact (reset_restores body ops i st). Qed.
Print Assumptions C117_reset_partial.

(** Exactly: the list comes back with what was appended to it while the setting held it *)
Theorem C117_list {A} (body : list (statement A)) ops i st l : NoDup (map st_name body) → body !! i = Some st →
  String.prefix "__" (st_name st) = false → st_value st = Items l →
  getattr (reset body (run body ops)) (st_name st) = Ok (Items (l ++ appended (st_name st) true ops)).
Proof. exact (reset_items body ops i st l). Qed.
Print Assumptions C117_list.

(** The settings of tablite *)
Theorem C117_config environ workdir pid vpus ops i st : config_body environ workdir pid vpus !! i = Some st →
  String.prefix "__" (st_name st) = false → st_name st ≠ "NIM_SUPPORTED_CONV_TYPES" →
  getattr (reset (config_body environ workdir pid vpus) (run (config_body environ workdir pid vpus) ops)) (st_name st) = Ok (st_value st).
Proof. exact (config_reset environ workdir pid vpus ops i st). Qed.
Print Assumptions C117_config.

(** Settings of the program itself stay *)
Theorem C117_others {A} (body : list (statement A)) c k : (∀ st, st ∈ body → st_name st ≠ k) → getattr (reset body c) k = getattr c k.
Proof. exact (reset_others body c k). Qed.
Print Assumptions C117_others.

Definition body0 : list (statement conf_value) := config_body (λ _, None) "/tmp/tablite-tmp" "pid-1" 3.
Definition ops0 : list (setting_op conf_value) :=
  [Assign "PAGE_SIZE" (One (Number 7)); Append "NIM_SUPPORTED_CONV_TYPES" (Text "KOI8-R"); Remove "workdir";
   Assign "NIM_SUPPORTED_CONV_TYPES" (Items [Text "UTF-16"]); Append "NIM_SUPPORTED_CONV_TYPES" (Text "UTF-7"); Assign "mine" (Items [])].

Example C117_case :
  getattr (run body0 ops0) "PAGE_SIZE" = Ok (One (Number 7)) ∧
  getattr (run body0 ops0) "workdir" = Err AttributeError ∧
  getattr (run body0 ops0) "NIM_SUPPORTED_CONV_TYPES" = Ok (Items [Text "UTF-16"; Text "UTF-7"]) ∧
  getattr (reset body0 (run body0 ops0)) "PAGE_SIZE" = Ok (One (Number 1000000)) ∧
  getattr (reset body0 (run body0 ops0)) "workdir" = Ok (One (Text "/tmp/tablite-tmp")) ∧
  getattr (reset body0 (run body0 ops0)) "mine" = Ok (Items []) ∧
  appended "NIM_SUPPORTED_CONV_TYPES" true ops0 = [Text "KOI8-R"] ∧
  getattr (reset body0 (run body0 ops0)) "NIM_SUPPORTED_CONV_TYPES" = Ok (Items [Text "Windows-1252"; Text "ISO-8859-1"; Text "KOI8-R"]).
Proof. vm_compute. done. Qed.

Theorem C117_refuted : ∃ ops i st, body0 !! i = Some st ∧ String.prefix "__" (st_name st) = false ∧
  getattr (reset body0 (run body0 ops)) (st_name st) ≠ Ok (st_value st).
Proof.
  exists [Append "NIM_SUPPORTED_CONV_TYPES" (Text "KOI8-R")], 4%nat. eexists. split; [reflexivity|]. split; [reflexivity|].
  vm_compute. intros H. discriminate H.
Qed.
Print Assumptions C117_refuted.

(** Flags of the environment: large and small letters are alike *)
Theorem C117_flags environ name dflt : env_flag environ name dflt = true ↔ means_yes (default dflt (environ name)).
Proof. exact (flag_yes environ name dflt). Qed.
Print Assumptions C117_flags.
Example C117_flags_case : use_nimporter (λ n, if decide (n = "USE_NIMPORTER") then Some "Yes" else None) = true ∧
  use_nimporter (λ _, None) = false ∧ allow_csv_reader_fallthrough (λ _, None) = true ∧
  allow_csv_reader_fallthrough (λ _, Some "on") = false.
Proof. vm_compute. done. Qed.
