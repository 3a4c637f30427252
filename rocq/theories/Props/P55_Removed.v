(** Comparisons with a schema without tables on one side (C132) *)
From Coq Require Import String Ascii List NArith Bool.
From Verif.Model Require Import GoString Util Octopus Common Liquibase Cli.
From Verif.Spec Require Import Order DiffSpec OptionsSpec RemovedSpec.
From Verif.Proofs Require Import CliCases EndCases RemovedProofs.
Import ListNotations.
Local Open Scope string_scope.

(** C132. If the new schema has no tables, the Flyway script drops every table of the old schema once, in alphabetical
    order, and has no other statement, whatever the options are; *)
Theorem C132_script : forall w fs v nf nt out from to, iteration_order (w_ord_tables w) ->
  v "from" = Some nf -> v "to" = Some nt -> v "output" = Some out ->
  load_file w fs nf = Loaded from -> load_file w fs nt = Loaded to -> s_tables to = [] ->
  exists ns, names_of (s_tables from) ns /\ run w fs DiffFlyway v = ([(out, drop_script ns)], Done).
Proof. exact script_to_nothing. Qed.
Print Assumptions C132_script.

(** the change log has one change set for each of the tables, *)
Theorem C132_log : forall w fs v nf nt out from to, iteration_order (w_ord_tables w) ->
  v "from" = Some nf -> v "to" = Some nt -> v "output" = Some out ->
  load_file w fs nf = Loaded from -> load_file w fs nt = Loaded to -> s_tables to = [] ->
  exists ns css, names_of (s_tables from) ns /\ run w fs DiffLiquibase v = ([(out, w_yaml w css)], Done) /\
    map lq_changes css = map (fun n => [LqDropTable n]) ns.
Proof. exact log_to_nothing. Qed.
Print Assumptions C132_log.

(** and the report says that they are dropped. *)
Theorem C132_report : forall w fs v nf nt out from to, iteration_order (w_ord_tables w) -> iteration_order (w_ord_keys w) ->
  v "from" = Some nf -> v "to" = Some nt -> v "output" = Some out ->
  load_file w fs nf = Loaded from -> load_file w fs nt = Loaded to -> s_tables to = [] ->
  exists ns, names_of (s_tables from) ns /\
    run w fs DiffMd v = ([(out, one_line_report (s_version from) (s_version to) "drop table" ns)], Done).
Proof. exact report_to_nothing. Qed.
Print Assumptions C132_report.

(** If the old schema has no tables, the report says of the tables of the chosen groups that they are created. *)
Theorem C132_created : forall w fs v nf nt out g from to, iteration_order (w_ord_tables w) -> iteration_order (w_ord_keys w) ->
  v "from" = Some nf -> v "to" = Some nt -> v "output" = Some out -> flag_string DiffMd v "groups" = g ->
  load_file w fs nf = Loaded from -> s_tables from = [] -> load_file w fs nt = Loaded to -> NoDup (map t_name (s_tables to)) ->
  exists ns, names_of (filter (passes (get_table_filter g)) (s_tables to)) ns /\
    run w fs DiffMd v = ([(out, one_line_report (s_version from) (s_version to) "create table" ns)], Done).
Proof. exact report_from_nothing. Qed.
Print Assumptions C132_created.

Definition rm_empty : schema := mkSchema "you" "store" "2" [].
Definition rm_full : schema :=
  mkSchema "me" "store" "1"
    [mkTable "c" [mkCol "id" "int64" "" 0 0 true true false true "" "" [] None] "" "g" "" [];
     mkTable "a" [mkCol "x" "int64" "" 0 0 true true false false "" "" [] None] "" "h" "" [];
     mkTable "b" [mkCol "id" "int64" "" 0 0 true true true false "" "" [] None] "" "h" "" []].
Definition rm_values : values := option_values [("from", "a.json"); ("to", "b.json"); ("output", "o"); ("groups", "h")].
Definition rm_back : values := option_values [("from", "b.json"); ("to", "a.json"); ("output", "o"); ("groups", "h")].
Example C132_case :
  load_file end_world (ex_files rm_full rm_empty) "a.json" = Loaded rm_full /\
  load_file end_world (ex_files rm_full rm_empty) "b.json" = Loaded rm_empty /\
  run end_world (ex_files rm_full rm_empty) DiffFlyway rm_values =
    ([("o", as_text ["DROP TABLE a;"; ""; "DROP TABLE b;"; ""; "DROP TABLE c;"; ""])], Done) /\
  run end_world (ex_files rm_full rm_empty) DiffMd rm_back =
    ([("o", as_text ["# DB Schema changes"; ""; "* from: `2`"; "* to: `1`"; ""; "## a"; "* create table"; ""; "## b"; "* create table"])], Done) /\
  names_of (s_tables rm_full) ["a"; "b"; "c"].
Proof.
  refine (conj _ (conj _ (conj _ (conj _ _)))); try (vm_compute; reflexivity). exact (slice_names (s_tables rm_full)).
Qed.
