(** The finding of C88 *)
From Coq Require Import String Ascii List NArith Bool.
From Verif.Model Require Import GoString Util Octopus Common Json JsonText Ojson Staruml Cli.
From Verif.Spec Require Import Text OctopusSpec CommonSpec JsonSpec OjsonSpec CliSpec FormatSpec V1Spec.
From Verif.Proofs Require Import OctopusProofs OjsonProofs CliCases V1Proofs.
Import ListNotations.
Local Open Scope string_scope.

(** class names and default values are lost *)
Definition v1_names : string -> option string := option_values [("input", "a.ojson"); ("output", "a.json")].
Definition v1_written : string :=
  match fst (run sample_world (fun _ => Some v1_sample_text) ImportOjson v1_names) with (_, x) :: _ => x | [] => "" end.
Definition v1_back : schema := schema_of (load_file sample_world (fun _ => Some v1_written) "a.json").
Definition v1_user_back : table := nth 1 (s_tables v1_back) (mkTable "" [] "" "" "" []).
Definition v1_mail_back : column := nth 1 (t_cols v1_user_back) (mkCol "" "" "" 0 0 false false false false "" "" [] None).
Definition v1_user_sample : v1_table := hd (mkV1Table "" [] "" "" "") (o_tables v1_sample).
Definition v1_mail_sample : v1_column := nth 1 (o_cols v1_user_sample) (mkV1Col "" "" "" 0 0 false false false false "" None).
Lemma v1_file_loses : exists w fs v text j s out fs' name s' t c t' c', sorts_tables (w_sort w) /\ sorts_v1 (w_sort_v1 w) /\
  fs (given v "input") = Some text /\ read_text text = Some j /\ v1_doc j s /\ v1_fits_u16 s /\ v1_usable s /\ v1_distinct s /\
  run w fs ImportOjson v = ([(given v "output", out)], Done) /\ octopus_name name /\ fs' name = Some out /\ load_file w fs' name = Loaded s' /\
  In t (o_tables s) /\ In c (o_cols t) /\ In t' (s_tables s') /\ In c' (t_cols t') /\ t_name t' = o_tname t /\ c_name c' = o_name c /\
  t_class t' <> o_class t /\ c_default c' <> o_default c.
Proof.
  exists sample_world, (fun _ => Some v1_sample_text), v1_names, v1_sample_text, v1_sample_json, v1_sample, v1_written,
    (fun _ => Some v1_written), "a.json", v1_back, v1_user_sample, v1_mail_sample, v1_user_back, v1_mail_back.
  destruct v1_sample_ok as [A [B [C [D E]]]].
  split; [exact isort_sorts|]. split; [exact isort_v1_sorts|]. split; [reflexivity|]. split; [exact A|]. split; [exact B|].
  split; [exact C|]. split; [exact D|]. split; [exact E|]. split; [vm_compute; reflexivity|].
  split; [exists "a", "json"; split; [reflexivity|]; split; [split; intros H; cbn in H; intuition discriminate|now left]|].
  split; [reflexivity|]. split; [vm_compute; reflexivity|]. split; [now left|]. split; [right; now left|].
  split; [apply (nth_In (s_tables v1_back)); vm_compute; repeat constructor|].
  split; [apply (nth_In (t_cols v1_user_back)); vm_compute; repeat constructor|].
  split; [vm_compute; reflexivity|]. split; [vm_compute; reflexivity|]. split; vm_compute; discriminate.
Qed.
