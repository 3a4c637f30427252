(** Members of schema files that nobody described (C138) *)
From Coq Require Import String Ascii List NArith Bool.
From Verif.Model Require Import GoString Octopus Json JsonText Cli.
From Verif.Spec Require Import StabilitySpec ExtrasSpec.
From Verif.Proofs Require Import CliCases ExtrasProofs.
Import ListNotations.
Local Open Scope string_scope.

(** C138. For every two JSON texts with the same described members; nothing is asked of their values. *)
Theorem C138_loads : forall w fs1 fs2 name, same_essence (fs1 name) (fs2 name) -> load_file w fs1 name = load_file w fs2 name.
Proof. exact essence_loads. Qed.
Print Assumptions C138_loads.

Theorem C138_commands : forall w fs1 fs2 c v, reads_schemas c -> (forall name, same_essence (fs1 name) (fs2 name)) ->
  run w fs1 c v = run w fs2 c v.
Proof. exact essence_runs. Qed.
Print Assumptions C138_commands.

Definition extras_one : string :=
"{""name"": ""db"", ""tables"": [{""name"": ""t"", ""columns"": [{""name"": ""id"", ""type"": ""int"", ""ref"": {""table"": ""u"", ""column"": ""id""}}]}]}".
Definition extras_two : string :=
"{""$schema"": [1, null], ""Name"": ""db"", ""TABLES"": [{""name"": ""t"", ""engine"": {""name"": ""x""},
  ""columns"": [{""NAME"": ""id"", ""type"": ""int"", ""name2"": 5, ""ref"": {""table"": ""u"", ""onDelete"": ""cascade"", ""column"": ""id""}}]}]}".
Example C138_case :
  same_essence (Some extras_one) (Some extras_two) /\ extras_one <> extras_two /\
  load_file sample_world (fun _ => Some extras_two) "db.json" =
    Loaded (mkSchema "" "db" "" [mkTable "t" [mkCol "id" "int32" "" 0 0 false false false false "" "" [] (Some (mkRef "u" "id" ""))] "" "" "" []]).
Proof.
  split; [|split; [discriminate | vm_compute; reflexivity]]. right. exists extras_one, extras_two.
  eexists. eexists. split; [reflexivity|]. split; [reflexivity|]. split; [vm_compute; reflexivity|]. split; [vm_compute; reflexivity|].
  vm_compute. reflexivity.
Qed.
