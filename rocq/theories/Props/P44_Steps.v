(** Values through a sequence of versions (C119) *)
From Coq Require Import String Ascii List NArith Bool.
From Verif.Model Require Import GoString Octopus Liquibase Cli.
From Verif.Spec Require Import LiquibaseSpec CliSpec OptionsSpec EndSpec Database TraceSpec StepSpec.
From Verif.Spec Require LogReleaseSpec.
From Verif.Proofs Require Import LiquibaseWitnesses CliCases EndCases LogReleaseCases Steps StepCases.
Import ListNotations.
Local Open Scope string_scope.

(** C119. However many versions there are: after all the change logs of "diff liquibase", the values of a column that all
    versions have are still in it, all others came from version to version to a column like theirs, and values of different
    columns are not mixed. *)
Theorem C119_steps_partial : forall w fs comments first versions texts last, real_world w ->
  steps w fs comments first versions texts last -> (forall ts, In ts versions -> all_distinct ts) ->
  exists logs, texts = map (w_yaml w) logs /\
    (forall p, (forall ts, In ts versions -> has ts p) -> trace log_moves (all_statements logs) p = Some p) /\
    goes comments versions (trace log_moves (all_statements logs)).
Proof. exact steps_go. Qed.
Print Assumptions C119_steps_partial.

(** In one step from the first version to the last, the values of these columns are the same. *)
Theorem C119_direct_partial : forall w fs comments first versions texts last v text, real_world w ->
  steps w fs comments first versions texts last -> (forall ts, In ts versions -> all_distinct ts) ->
  given v "from" = first -> given v "to" = last -> given v "groups" = "" -> (comments = true <-> switched_on v "comments") ->
  run w fs DiffLiquibase v = ([(given v "output", text)], Done) ->
  exists logs direct, texts = map (w_yaml w) logs /\ text = w_yaml w direct /\
    forall p, (forall ts, In ts versions -> has ts p) ->
      trace log_moves (all_statements logs) p = Some p /\ trace log_moves (lq_all direct) p = Some p.
Proof. exact steps_direct. Qed.
Print Assumptions C119_direct_partial.

Example C119_case :
  steps sample_world kx_files true "1.json" sx_versions (map show_log [kx_log kx_first kx_second; kx_log kx_second kx_third]) "3.json" /\
  (forall ts, In ts sx_versions -> all_distinct ts) /\
  map (trace log_moves (all_statements [kx_log kx_first kx_second; kx_log kx_second kx_third]))
    [("u", "id"); ("u", "mail"); ("u", "name"); ("u", "old"); ("gone", "id"); ("before", "x")] =
  [Some ("u", "id"); Some ("u", "mail"); Some ("u", "code"); Some ("u", "renamed"); None; Some ("later", "x")].
Proof. exact steps_case. Qed.

(** False of the other columns, although the databases are the same: the steps lose the values of a column that one version
    does not have, *)
Theorem C119_steps_refuted : exists made log1 log2 direct start,
  run sample_world sx_again GenerateLiquibase (kx_make "1.json") = ([("o", show_log made)], Done) /\
  run sample_world sx_again DiffLiquibase (kx_values "1.json" "2.json") = ([("o", show_log log1)], Done) /\
  run sample_world sx_again DiffLiquibase (kx_values "2.json" "3.json") = ([("o", show_log log2)], Done) /\
  run sample_world sx_again DiffLiquibase (kx_values "1.json" "3.json") = ([("o", show_log direct)], Done) /\
  run_log lx_sv made [] = Some start /\ LogReleaseSpec.run_logs lx_sv [log1; log2] start = run_log lx_sv direct start /\
  run_log lx_sv direct start = Some start /\
  trace log_moves (all_statements [log1; log2]) ("t", "x") = None /\ trace log_moves (lq_all direct) ("t", "x") = Some ("t", "x").
Proof. exact steps_lose. Qed.
Print Assumptions C119_steps_refuted.

(** and the one step those of a column that is first renamed and then changed. *)
Theorem C119_direct_refuted : exists made log1 log2 direct start new,
  run sample_world sx_changed GenerateLiquibase (kx_make "1.json") = ([("o", show_log made)], Done) /\
  run sample_world sx_changed DiffLiquibase (kx_values "1.json" "2.json") = ([("o", show_log log1)], Done) /\
  run sample_world sx_changed DiffLiquibase (kx_values "2.json" "3.json") = ([("o", show_log log2)], Done) /\
  run sample_world sx_changed DiffLiquibase (kx_values "1.json" "3.json") = ([("o", show_log direct)], Done) /\
  run_log lx_sv made [] = Some start /\ LogReleaseSpec.run_logs lx_sv [log1; log2] start = Some new /\ run_log lx_sv direct start = Some new /\
  trace log_moves (all_statements [log1; log2]) ("t", "a") = Some ("t", "b") /\ trace log_moves (lq_all direct) ("t", "a") = None.
Proof. exact direct_loses. Qed.
Print Assumptions C119_direct_refuted.
