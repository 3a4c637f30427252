(** Comparisons without changes (C121, C122) *)
From Coq Require Import String Ascii List NArith Bool.
From Verif.Model Require Import GoString Util Octopus Common DiffCore Diff DiffWriters Liquibase Mysql Xlsx Cli.
From Verif.Spec Require Import OctopusSpec JsonSpec DiffSpec LiquibaseSpec CliSpec OptionsSpec StabilitySpec GroupSpec MysqlSpec EndSpec DriftSpec.
From Verif.Spec Require XlsxSpec.
From Verif.Proofs Require Import MysqlWitnesses CliCases EndCases AgreeCases Drift DriftFiles DriftCases.
From Verif.Proofs Require XlsxWitnesses.
Import ListNotations.
Local Open Scope string_scope.

(** C121. No change is found exactly if the schemas agree: this fails for the reports, which overlook a new column, *)
Theorem C121_report_refuted : exists from to, distinct_names from /\ distinct_names to /\
  get_diff (fun l => l) (fun _ l => l) gx_opt from to = Some [] /\ ~ agree true None from to.
Proof. exact added_unnoticed. Qed.
Print Assumptions C121_report_refuted.

(** and for change logs, which overlook that auto-increment is turned off. *)
Theorem C121_log_refuted : forall float_ok, exists from to, distinct_names from /\ distinct_names to /\
  lq_diff float_ok (fun l => l) (fun _ l => l) gx_lq from to = Some [] /\ ~ agree true None from to.
Proof. exact counter_unnoticed. Qed.
Print Assumptions C121_log_refuted.

(** These are all they overlook. *)
Theorem C121_report_partial : forall ordT ordC o from to, iteration_order ordT -> (forall i, iteration_order (ordC i)) ->
  distinct_names from -> distinct_names to ->
  (get_diff ordT ordC o from to = Some [] <-> agree_by (same_column (do_comments o)) plain_more (do_comments o) (do_filter o) from to).
Proof. exact report_silent. Qed.
Print Assumptions C121_report_partial.

Theorem C121_log_partial : forall float_ok ordT ordC o from to, iteration_order ordT -> (forall i, iteration_order (ordC i)) ->
  distinct_names from -> distinct_names to ->
  (lq_diff float_ok ordT ordC o from to = Some [] <->
   agree_by (log_alike (lo_comments o)) (fun _ => False) (lo_comments o) (lo_filter o) from to).
Proof. exact log_silent. Qed.
Print Assumptions C121_log_partial.

(** Together they find nothing exactly if the schemas agree. *)
Theorem C121_both : forall float_ok ordT ordC ordT' ordC' o lo from to,
  iteration_order ordT -> (forall i, iteration_order (ordC i)) -> iteration_order ordT' -> (forall i, iteration_order (ordC' i)) ->
  distinct_names from -> distinct_names to -> lo_comments lo = do_comments o -> lo_filter lo = do_filter o ->
  (get_diff ordT ordC o from to = Some [] /\ lq_diff float_ok ordT' ordC' lo from to = Some [] <->
   agree (do_comments o) (do_filter o) from to).
Proof. exact both_silent. Qed.
Print Assumptions C121_both.

(** The diff commands say so. *)
Theorem C121_commands : forall w fs v a b, real_world w -> v "from" <> None -> v "to" <> None -> v "output" <> None ->
  load_file w fs (given v "from") = Loaded a -> load_file w fs (given v "to") = Loaded b -> distinct_names a -> distinct_names b ->
  given v "groups" = "" -> agree (flag_bool DiffFlyway v "comments") None a b -> says_nothing w fs v a b.
Proof. exact agreeing_files. Qed.
Print Assumptions C121_commands.

(** Schemas that differ in the order of tables and columns, in groups, classes, indices, references, values of enums,
    on-update values and their own attributes agree. *)
Example C121_case : forall float_ok, distinct_names dx_a /\ distinct_names dx_b /\ dx_a <> dx_b /\
  get_diff (fun l => l) (fun _ l => l) gx_opt dx_a dx_b = Some [] /\ lq_diff float_ok (fun l => l) (fun _ l => l) gx_lq dx_a dx_b = Some [] /\
  agree true None dx_a dx_b.
Proof. exact (fun fk => conj (proj1 dx_distinct) (conj (proj2 dx_distinct) (conj dx_differ (dx_case fk)))). Qed.

(** C122. A schema that came back from its MySQL DDL shows no drift, in either direction, unless descriptions of tables are compared. *)
Theorem C122_mysql_partial : forall w reserved fs v s, real_world w -> reads_sql w reserved ->
  load_file w fs (given v "input") = Loaded s -> valid_schema s -> distinct_names s ->
  v "input" <> None -> v "output" <> None -> given v "groups" = "" ->
  Forall (plain_table reserved (given v "uniqueNameSuffix")) (s_tables s) ->
  Forall (fun t => Forall survives (t_cols t)) (s_tables s) ->
  exists text, run w fs ExportMysql v = ([(given v "output", text)], Done) /\
  forall fs' v', fs' (given v' "input") = Some text -> v' "input" <> None -> v' "output" <> None ->
  octopus_name (given v' "output") -> utf8 (given v' "author") -> utf8 (given v' "version") -> given v' "excludes" = "" ->
  exists text', run w fs' ImportMysql v' = ([(given v' "output", text')], Done) /\
  forall fs'' x d, fs'' (given v' "output") = Some text' -> load_file w fs'' x = Loaded s ->
  (flag_bool DiffFlyway d "comments" = true -> Forall (fun t => t_desc t = "") (s_tables s)) ->
  exists s', load_file w fs'' (given v' "output") = Loaded s' /\
    (compares d x (given v' "output") -> says_nothing w fs'' d s s') /\ (compares d (given v' "output") x -> says_nothing w fs'' d s' s).
Proof. exact mysql_drift. Qed.
Print Assumptions C122_mysql_partial.

Example C122_mysql_case : real_world end_world /\ reads_sql end_world mx_reserved /\
  load_file end_world (fun _ => Some (ex_text mx_schema)) "a.json" = Loaded mx_schema /\ valid_schema mx_schema /\ distinct_names mx_schema /\
  Forall (plain_table mx_reserved "_uq") (s_tables mx_schema) /\ Forall (fun t => Forall survives (t_cols t)) (s_tables mx_schema) /\
  compares (dx_diff "false") "a.json" "b.json" /\ flag_bool DiffFlyway (dx_diff "false") "comments" = false /\
  run end_world (dx_files mx_schema) DiffFlyway (dx_diff "false") = ([("c", "")], Done).
Proof. exact dx_hyps. Qed.

(** With --comments the same files differ: the DDL has no descriptions of tables. *)
Theorem C122_mysql_refuted :
  load_file end_world (dx_files mx_schema) "a.json" = Loaded mx_schema /\
  compares (dx_diff "true") "a.json" "b.json" /\ flag_bool DiffFlyway (dx_diff "true") "comments" = true /\
  run end_world (dx_files mx_schema) DiffMd (dx_diff "true") = ([("c", "# DB Schema changes

* from: `1`
* to: ``

## user
* update table comment: ``
")], Done).
Proof. exact description_drift. Qed.
Print Assumptions C122_mysql_refuted.

(** A schema that came back from its workbook shows no drift, with and without comments. *)
Theorem C122_xlsx : forall w fs v s, real_world w -> keeps_workbooks w ->
  load_file w fs (given v "input") = Loaded s -> valid_schema s -> distinct_names s ->
  v "input" <> None -> v "output" <> None ->
  XlsxSpec.sheets_possible (w_sheet_ok w) s -> Forall XlsxSpec.plain_table (s_tables s) ->
  exists text, run w fs ExportXlsx v = ([(given v "output", text)], Done) /\
  forall fs' v', fs' (given v' "input") = Some text -> v' "input" <> None -> v' "output" <> None ->
  octopus_name (given v' "output") ->
  exists text', run w fs' ImportXlsx v' = ([(given v' "output", text')], Done) /\
  forall fs'' x d, fs'' (given v' "output") = Some text' -> load_file w fs'' x = Loaded s ->
  exists s', load_file w fs'' (given v' "output") = Loaded s' /\
    (compares d x (given v' "output") -> says_nothing w fs'' d s s') /\ (compares d (given v' "output") x -> says_nothing w fs'' d s' s).
Proof. exact xlsx_drift. Qed.
Print Assumptions C122_xlsx.

(** the schema of C104_case *)
Example C122_xlsx_case : distinct_names XlsxWitnesses.xl_schema /\
  run end_world dx_books DiffFlyway (dx_diff "true") = ([("c", "")], Done).
Proof. exact book_case. Qed.
