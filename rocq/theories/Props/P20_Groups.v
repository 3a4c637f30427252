(** The option "groups" (C83) *)
From Coq Require Import String Ascii List NArith Bool.
From Verif.Model Require Import GoString Octopus Cli.
From Verif.Spec Require Import CliSpec OptionsSpec GroupSpec.
From Verif.Proofs Require Import CliCases CliOptions CliGroups.
Import ListNotations.
Local Open Scope string_scope.

(** C83. Choosing groups gives the same files as a schema file with the other tables removed. *)
Theorem C83_groups : forall w fs fs' c v v' s s', In c [ExportMysql; GenerateKt; GenerateLiquibase; GenerateSqlalchemy] ->
  differ_only_at "groups" v v' -> given v' "groups" = "" ->
  load_file w fs (given v "input") = Loaded s -> load_file w fs' (given v' "input") = Loaded s' ->
  only_chosen (given v "groups") s s' -> run w fs c v = run w fs' c v'.
Proof. exact groups_alone. Qed.
Print Assumptions C83_groups.

(** The GORM and protobuf generators refer to tables that are not chosen. *)
Theorem C83_gorm_refuted : exists w fs fs' v v' s s', real_world w /\
  differ_only_at "groups" v v' /\ given v' "groups" = "" /\
  load_file w fs (given v "input") = Loaded s /\ load_file w fs' (given v' "input") = Loaded s' /\
  only_chosen (given v "groups") s s' /\
  snd (run w fs GenerateGorm v) = Done /\ snd (run w fs' GenerateGorm v') = Done /\
  run w fs GenerateGorm v <> run w fs' GenerateGorm v'.
Proof. exact gorm_dangles. Qed.
Print Assumptions C83_gorm_refuted.

Theorem C83_pb_refuted : exists w fs fs' v v' s s', real_world w /\
  differ_only_at "groups" v v' /\ given v' "groups" = "" /\
  load_file w fs (given v "input") = Loaded s /\ load_file w fs' (given v' "input") = Loaded s' /\
  only_chosen (given v "groups") s s' /\
  snd (run w fs GeneratePb v) = Done /\ snd (run w fs' GeneratePb v') = Crashed.
Proof. exact pb_dangles. Qed.
Print Assumptions C83_pb_refuted.

(** They agree if no chosen table refers to another one. *)
Theorem C83_references_partial : forall w fs fs' c v v' s s', In c [GenerateGorm; GeneratePb] ->
  differ_only_at "groups" v v' -> given v' "groups" = "" ->
  load_file w fs (given v "input") = Loaded s -> load_file w fs' (given v' "input") = Loaded s' ->
  only_chosen (given v "groups") s s' -> references_stay (given v "groups") s -> run w fs c v = run w fs' c v'.
Proof. exact groups_stay. Qed.
Print Assumptions C83_references_partial.

Example C83_case : only_chosen "g1" sorted_old (old_tables "g1") /\ references_stay "g1" sorted_old /\
  length (s_tables sorted_old) = 2 /\ length (s_tables (old_tables "g1")) = 1 /\
  load_file sample_world sales_files "a.json" = Loaded sorted_old /\
  load_file sample_world (one_group "g1") "a.json" = Loaded (old_tables "g1") /\
  snd (run sample_world sales_files GenerateGorm (choose_group "g1")) = Done.
Proof. exact group_case. Qed.
