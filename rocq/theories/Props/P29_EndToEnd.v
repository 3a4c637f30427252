(** Whole commands, from files to files (C101 to C104) *)
From Coq Require Import String Ascii List NArith ZArith Bool.
From Verif.Model Require Import GoString Util Octopus Common Json JsonText Mysql Xlsx Liquibase DiffCore Diff DiffWriters Cli.
From Verif.Spec Require Import Text Order OctopusSpec JsonSpec DiffSpec MysqlGrammar MysqlSpec FlywaySpec MarkdownSpec ServerSpec
  LiquibaseSpec CliSpec OptionsSpec GroupSpec EndSpec.
From Verif.Spec Require XlsxSpec Database.
From Verif.Proofs Require Import FlywayFacts ServerCases MysqlWitnesses LiquibaseWitnesses CliCases EndToEnd EndCases.
From Verif.Proofs Require XlsxWitnesses.
Import ListNotations.
Local Open Scope string_scope.

(** C101. The script of "diff flyway" turns every database of the schema file "from" into one of the chosen
    tables of the file "to". *)
Theorem C101_flyway_partial : forall w fs v ws, real_world w -> run w fs DiffFlyway v = (ws, Done) ->
  exists a b text, load_file w fs (given v "from") = Loaded a /\ load_file w fs (given v "to") = Loaded b /\
    ws = [(given v "output", text)] /\
    forall reserved bs, picked (chosen (given v "groups")) (s_tables b) bs ->
      proper (alter_reserved reserved) (given v "uniqueNameSuffix") (s_tables b) ->
      Forall (fun t => plain_ident (alter_reserved reserved) (t_name t)) (s_tables a) -> NoDup (map t_name (s_tables a)) ->
      (forall t old, In t bs -> In old (s_tables a) -> t_name old = t_name t -> alterable old t) ->
      (forall t old, In t bs -> In old (s_tables a) -> ~ In (t_name t) (map t_name (s_tables a)) -> t_cols t = t_cols old ->
         (forall k, ~ uq_column t k) /\ t_indices t = t_indices old) ->
      migrates reserved (given v "uniqueNameSuffix") text (s_tables a) bs.
Proof. exact flyway_command. Qed.
Print Assumptions C101_flyway_partial.

Example C101_flyway_case :
  load_file sample_world (ex_files sx_from sx_to) "a.json" = Loaded ex_from /\
  load_file sample_world (ex_files sx_from sx_to) "b.json" = Loaded ex_to /\
  snd (run sample_world (ex_files sx_from sx_to) DiffFlyway ex_values) = Done /\
  picked (chosen (given ex_values "groups")) (s_tables ex_to) (s_tables ex_to) /\
  proper (alter_reserved fx_reserved) "_uq" (s_tables ex_to) /\
  Forall (fun t => plain_ident (alter_reserved fx_reserved) (t_name t)) (s_tables ex_from) /\ NoDup (map t_name (s_tables ex_from)) /\
  (forall t old, In t (s_tables ex_to) -> In old (s_tables ex_from) -> t_name old = t_name t -> alterable old t) /\
  (forall t old, In t (s_tables ex_to) -> In old (s_tables ex_from) -> ~ In (t_name t) (map t_name (s_tables ex_from)) ->
     t_cols t = t_cols old -> (forall k, ~ uq_column t k) /\ t_indices t = t_indices old).
Proof. exact flyway_case. Qed.

(** the change log of "diff liquibase" *)
Theorem C101_liquibase_partial : forall w fs v ws, real_world w -> run w fs DiffLiquibase v = (ws, Done) ->
  exists a b css, load_file w fs (given v "from") = Loaded a /\ load_file w fs (given v "to") = Loaded b /\
    ws = [(given v "output", w_yaml w css)] /\
    forall sv comments bs s, (comments = true <-> switched_on v "comments") ->
      picked (chosen (given v "groups")) (s_tables b) bs ->
      NoDup (map t_name (s_tables a)) -> NoDup (map t_name (s_tables b)) ->
      (forall t, In t (s_tables a) \/ In t (s_tables b) -> Database.well_formed t) ->
      (forall t old, In t bs -> In old (s_tables a) -> t_name old = t_name t ->
         Database.migratable (w_float_ok w) sv (lq_all css) old t) ->
      (forall t old, In t (s_tables b) -> In old (s_tables a) -> comments = true ->
         In (LqRenameTable (t_name t) (t_name old)) (lq_all css) -> t_desc t = t_desc old) ->
      Database.is_database (Database.has_table (w_float_ok w) comments "") (s_tables a) s ->
      exists s', Database.run_log sv css s = Some s' /\ Database.is_database (Database.good_table (w_float_ok w) comments) bs s'.
Proof. exact liquibase_command. Qed.
Print Assumptions C101_liquibase_partial.

Example C101_liquibase_case :
  load_file sample_world (ex_files lx_from4 lx_to4) "a.json" = Loaded (ex_sorted lx_from4) /\
  load_file sample_world (ex_files lx_from4 lx_to4) "b.json" = Loaded (ex_sorted lx_to4) /\
  run sample_world (ex_files lx_from4 lx_to4) DiffLiquibase ex_values = ([("o", w_yaml sample_world ex_log)], Done) /\
  (forall t, In t (s_tables (ex_sorted lx_from4)) \/ In t (s_tables (ex_sorted lx_to4)) -> Database.well_formed t) /\
  (forall t old, In t (s_tables (ex_sorted lx_to4)) -> In old (s_tables (ex_sorted lx_from4)) -> t_name old = t_name t ->
     Database.migratable (w_float_ok sample_world) lx_sv (lq_all ex_log) old t) /\
  Database.is_database (Database.has_table (w_float_ok sample_world) true "") (s_tables (ex_sorted lx_from4))
    (map (lx_b "") (s_tables (ex_sorted lx_from4))) /\
  option_map (map Database.b_name) (Database.run_log lx_sv ex_log (map (lx_b "") (s_tables (ex_sorted lx_from4)))) = Some ["after"; "u"; "fresh"].
Proof. exact liquibase_case. Qed.

(** the report of "diff md": the versions of the files, and every change of the diff from one to the other *)
Theorem C101_md : forall w fs v ws, real_world w -> run w fs DiffMd v = (ws, Done) ->
  exists a b comments css names text, load_file w fs (given v "from") = Loaded a /\ load_file w fs (given v "to") = Loaded b /\
    (comments = true <-> switched_on v "comments") /\
    get_diff (w_ord_tables w) (w_ord_columns w)
      (mkDiffOption (get_table_filter (given v "groups")) (given v "author") (given v "uniqueNameSuffix") comments) a b = Some css /\
    ws = [(given v "output", text)] /\ strictly_increasing names /\
    (forall n, In n names <-> exists ch, In ch (all_changes css) /\ t_name (dep_table ch) = n) /\
    text = write_lines (report_head (s_version a) (s_version b) ++ flat_map (report_section md_line (all_changes css)) names)%list.
Proof. exact md_command. Qed.
Print Assumptions C101_md.

(** C102. Without an option it needs, a command fails and writes nothing... *)
Theorem C102_needed : forall w fs c v n, In n (needed c) -> v n = None -> run w fs c v = ([], Failed).
Proof. exact needed_given. Qed.
Print Assumptions C102_needed.

(** ... and it needs no others. *)
Theorem C102_enough : forall c v, (forall n, In n (needed c) -> v n <> None) -> required_given c v = true.
Proof. exact needed_enough. Qed.
Print Assumptions C102_enough.

Example C102_case :
  run sample_world (ex_files sx_from sx_to) DiffMd (option_values [("from", "a.json"); ("to", "b.json")]) = ([], Failed) /\
  snd (run sample_world (ex_files sx_from sx_to) DiffMd (option_values [("from", "a.json"); ("to", "b.json"); ("output", "o")])) = Done.
Proof. split; vm_compute; reflexivity. Qed.

(** C103. "export mysql" and then "import mysql" gives the chosen tables, except the excluded ones; descriptions,
    groups and classes of tables and the references of columns are gone. *)
Theorem C103_mysql_files_partial : forall w reserved fs v s ts,
  sorts_tables (w_sort w) -> reads_sql w reserved ->
  load_file w fs (given v "input") = Loaded s -> valid_schema s ->
  v "input" <> None -> v "output" <> None ->
  picked (chosen (given v "groups")) (s_tables s) ts ->
  Forall (plain_table reserved (given v "uniqueNameSuffix")) ts ->
  Forall (fun t => NoDup (map c_name (t_cols t)) /\ Forall survives (t_cols t)) ts ->
  exists text, run w fs ExportMysql v = ([(given v "output", text)], Done) /\
  forall fs' v' ts', fs' (given v' "input") = Some text -> v' "input" <> None -> v' "output" <> None ->
  octopus_name (given v' "output") -> utf8 (given v' "author") -> utf8 (given v' "version") ->
  picked (fun t => ~ listed (given v' "excludes") (t_name t)) ts ts' ->
  exists text', run w fs' ImportMysql v' = ([(given v' "output", text')], Done) /\
  forall fs'', fs'' (given v' "output") = Some text' ->
  exists s', load_file w fs'' (given v' "output") = Loaded s' /\ valid_schema s' /\
    in_order (mkSchema (given v' "author") "" (given v' "version") (map table_core ts')) s'.
Proof. exact mysql_files. Qed.
Print Assumptions C103_mysql_files_partial.

(** The exported file creates the database of the chosen tables on an empty server. *)
Theorem C103_mysql_server_partial : forall w reserved fs v s ts,
  load_file w fs (given v "input") = Loaded s -> v "input" <> None -> v "output" <> None ->
  picked (chosen (given v "groups")) (s_tables s) ts -> proper reserved (given v "uniqueNameSuffix") ts ->
  exists text, run w fs ExportMysql v = ([(given v "output", text)], Done) /\
    creates reserved (given v "uniqueNameSuffix") text ts.
Proof. exact mysql_server. Qed.
Print Assumptions C103_mysql_server_partial.

Example C103_case :
  reads_sql end_world mx_reserved /\
  load_file end_world (fun _ => Some (ex_text mx_schema)) "a.json" = Loaded mx_schema /\ valid_schema mx_schema /\
  picked (chosen (given ex_export "groups")) (s_tables mx_schema) [mx_user] /\
  Forall (plain_table mx_reserved "_uq") [mx_user] /\
  Forall (fun t => NoDup (map c_name (t_cols t)) /\ Forall survives (t_cols t)) [mx_user] /\
  picked (fun t => ~ listed (given ex_import "excludes") (t_name t)) [mx_user] [mx_user] /\
  load_file end_world (fun _ => Some (text_written (run end_world (fun _ => Some ex_sql) ImportMysql ex_import))) "b.json" =
    Loaded (mkSchema "you" "" "" [table_core mx_user]).
Proof. exact mysql_case. Qed.

(** C104. "export xlsx" and then "import xlsx" gives the same tables, those without a group in the group Common. *)
Theorem C104_xlsx_files_partial : forall w fs v s,
  real_world w -> keeps_workbooks w ->
  load_file w fs (given v "input") = Loaded s -> valid_schema s ->
  v "input" <> None -> v "output" <> None ->
  XlsxSpec.sheets_possible (w_sheet_ok w) s -> Forall XlsxSpec.plain_table (s_tables s) ->
  exists text, run w fs ExportXlsx v = ([(given v "output", text)], Done) /\
  forall fs' v', fs' (given v' "input") = Some text -> v' "input" <> None -> v' "output" <> None ->
  octopus_name (given v' "output") ->
  exists text', run w fs' ImportXlsx v' = ([(given v' "output", text')], Done) /\
  forall fs'', fs'' (given v' "output") = Some text' ->
  exists s', load_file w fs'' (given v' "output") = Loaded s' /\ valid_schema s' /\
    in_order (mkSchema (s_author s) (s_name s) (s_version s)
                (map (fun t => XlsxSpec.in_group (XlsxSpec.documented_sheet (t_group t)) t) (s_tables s))) s'.
Proof. exact xlsx_files. Qed.
Print Assumptions C104_xlsx_files_partial.

Example C104_case : real_world end_world /\ keeps_workbooks end_world /\
  load_file end_world (fun _ => Some (ex_text XlsxWitnesses.xl_schema)) "a.json" = Loaded XlsxWitnesses.xl_schema /\
  valid_schema XlsxWitnesses.xl_schema /\ XlsxSpec.sheets_possible (w_sheet_ok end_world) XlsxWitnesses.xl_schema /\
  Forall XlsxSpec.plain_table (s_tables XlsxWitnesses.xl_schema) /\
  load_file end_world (fun _ => Some (text_written (run end_world (fun _ => Some ex_xlsx) ImportXlsx ex_unbook))) "b.json" =
    Loaded (mkSchema "me" "db" "1" [XlsxSpec.in_group "Common" XlsxWitnesses.xl_group; XlsxWitnesses.xl_user]).
Proof. exact (conj end_real (conj end_keeps xlsx_case)). Qed.
