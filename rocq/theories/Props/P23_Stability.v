(** What does not change the outcome: the layout of the schema files, the order of their tables, saving them again;
    and comparing a file with itself *)
From Coq Require Import String Ascii List NArith Bool Sorting.Permutation.
From Verif.Model Require Import GoString Octopus Json JsonText Cli.
From Verif.Spec Require Import OctopusSpec JsonSpec CliSpec FormatSpec DiffSpec OptionsSpec StabilitySpec.
From Verif.Proofs Require Import OctopusProofs CliCases StabilityProofs.
Import ListNotations.
Local Open Scope string_scope.

(** C90. Every command that reads schema files does the same for two descriptions of the same schema, however they are
    laid out and in whatever order they list the tables. *)
Theorem C90_layout : forall w fs1 fs2 c v, sorts_tables (w_sort w) -> reads_schemas c ->
  (forall name, same_content (fs1 name) (fs2 name)) -> run w fs1 c v = run w fs2 c v.
Proof. exact content_runs. Qed.
Print Assumptions C90_layout.

Example C90_case : same_content (Some layout_one) (Some layout_two) /\ layout_one <> layout_two /\
  exists out, run sample_world (fun _ => Some layout_two) ExportMysql (option_values [("input", "db.json"); ("output", "db.sql")]) =
    ([("db.sql", out)], Done) /\ out <> "".
Proof.
  split; [exact layout_same|]. split; [vm_compute; discriminate|].
  eexists. split; [vm_compute; reflexivity|discriminate].
Qed.

(** C91. A schema that was loaded can be saved again, and loading the new file gives the same schema. The second part is
    true; the first is false: a loaded schema may have a type that cannot be saved ([C91_refuted]). It can be saved just
    when it is valid ([C91_saved_partial]). *)
Theorem C91_saved_partial : forall w fs name s, sorts_tables (w_sort w) -> load_file w fs name = Loaded s ->
  ((exists text, to_text (w_sort w) s = Some text) <-> valid_schema s).
Proof. exact loaded_saved. Qed.
Print Assumptions C91_saved_partial.

Theorem C91_resaved : forall w fs name s text fs' name', sorts_tables (w_sort w) ->
  load_file w fs name = Loaded s -> to_text (w_sort w) s = Some text -> octopus_name name' -> fs' name' = Some text ->
  exists s', load_file w fs' name' = Loaded s' /\ same_but_order s s' /\
    (distinct_table_keys s -> s' = s /\ to_text (w_sort w) s' = Some text).
Proof. exact loaded_resaved. Qed.
Print Assumptions C91_resaved.

Theorem C91_refuted : exists text, forall w fs name, sorts_tables (w_sort w) -> octopus_name name -> fs name = Some text ->
  exists s, load_file w fs name = Loaded s /\ to_text (w_sort w) s = None.
Proof. exact unsaved. Qed.
Print Assumptions C91_refuted.

Example C91_case : exists s text, load_file sample_world (fun _ => Some layout_two) "db.json" = Loaded s /\
  to_text isort_tables s = Some text /\ map t_name (s_tables s) = ["a"; "b"].
Proof. eexists. eexists. split; [vm_compute; reflexivity|]. split; vm_compute; reflexivity. Qed.

(** C92. Comparing a file with itself reports no changes. False when groups are asked for: the tables of other groups are
    reported as dropped. *)
Theorem C92_partial : forall w fs v s, real_world w -> v "from" <> None -> v "to" <> None -> v "output" <> None ->
  load_file w fs (given v "from") = Loaded s -> load_file w fs (given v "to") = Loaded s -> distinct_names s ->
  given v "groups" = "" ->
  run w fs DiffFlyway v = ([(given v "output", "")], Done) /\
  run w fs DiffLiquibase v = ([(given v "output", w_yaml w [])], Done) /\
  run w fs DiffMd v = ([(given v "output", no_changes (s_version s))], Done).
Proof. exact same_file_diff. Qed.
Print Assumptions C92_partial.

Theorem C92_refuted : exists w fs v s, real_world w /\ given v "from" = given v "to" /\
  load_file w fs (given v "from") = Loaded s /\ distinct_names s /\
  run w fs DiffFlyway v = ([(given v "output", "DROP TABLE t;

")], Done).
Proof. exact same_file_groups. Qed.
Print Assumptions C92_refuted.

Example C92_case : exists s, load_file sample_world (fun _ => Some layout_two) "db.json" = Loaded s /\ distinct_names s /\
  s_tables s <> [].
Proof. exact distinct_case. Qed.
