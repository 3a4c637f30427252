(** Crashes of the commands *)
From Coq Require Import String Ascii List NArith Bool.
From Verif.Model Require Import GoString Octopus Mysql Cli.
From Verif.Spec Require Import Text OjsonSpec MysqlGrammar CliSpec GroupSpec EndSpec CrashSpec.
From Verif.Proofs Require Import MysqlWitnesses CliCases CliFormat EndCases Crashes.
Import ListNotations.
Local Open Scope string_scope.

(** C113. False as stated: valid DDL with an index on an expression crashes the import. The crashes of the
    other commands are refuted with C36, C40, C41, C47 and C86. *)
Theorem C113_refuted : exists ddl : string, forall w fs v reserved, reads_sql w reserved -> v "input" <> None -> v "output" <> None ->
  fs (given v "input") = Some ddl -> ~ listed (given v "excludes") "user" ->
  run w fs ImportMysql v = ([], Crashed).
Proof. exact (ex_intro _ kx_ddl ddl_crashes). Qed.
Print Assumptions C113_refuted.

(** The import of DDL crashes exactly if there is such an index in a table that is not excluded. *)
Theorem C113_mysql : forall w fs v text stmts, v "input" <> None -> v "output" <> None ->
  fs (given v "input") = Some text -> w_sql w text = Some stmts ->
  (run w fs ImportMysql v = ([], Crashed) <->
   exists s name, In s stmts /\ on_expression s name /\ ~ listed (given v "excludes") name).
Proof. exact mysql_crash. Qed.
Print Assumptions C113_mysql.

(** Any crash of any command has one of the listed causes. *)
Theorem C113_partial : forall w fs v, sorts_v1 (w_sort_v1 w) ->
  forall c ws, run w fs c v = (ws, Crashed) -> crash_cause w fs v c.
Proof. exact crash_has_cause. Qed.
Print Assumptions C113_partial.

Example C113_case :
  map (fun c => kx_run null_text c "" "")
    [ImportOjson; ExportDbml; ExportQuickdbd; ExportMysql; ExportXlsx; GenerateGorm; GenerateGraphql; GenerateKt;
     GenerateLiquibase; GeneratePlantuml; GeneratePb; GenerateSqlalchemy; DiffFlyway; DiffLiquibase; DiffMd] = repeat ([], Crashed) 15 /\
  map (fun c => kx_run kx_text c "prefix" "g:G,h") [GenerateGorm; GenerateKt; GeneratePb; GenerateSqlalchemy] =
    repeat ([], Crashed) 4 /\
  kx_run kx_text GenerateKt "annotation" "g:@G,h" = ([], Crashed) /\
  kx_run kx_unnamed ImportOjson "" "" = ([], Crashed) /\
  kx_run kx_project ImportStaruml "" "" = ([], Crashed) /\
  kx_run kx_text GeneratePb "groups" "g" = ([], Crashed) /\ snd (kx_run kx_text GeneratePb "groups" "h") = Done /\
  snd (kx_run kx_text GenerateKt "reposPackage" "r") = Crashed /\ snd (kx_run kx_text GenerateKt "reposPackage" "") = Done.
Proof. exact crash_cases. Qed.

Example C113_mysql_case :
  reads_sql end_world mx_reserved /\ ~ listed (given (kx_sql_values "team,users") "excludes") "user" /\
  run end_world (fun _ => Some kx_ddl) ImportMysql (kx_sql_values "team,users") = ([], Crashed) /\
  snd (run end_world (fun _ => Some kx_ddl) ImportMysql (kx_sql_values "user")) = Done.
Proof. exact ddl_case. Qed.
