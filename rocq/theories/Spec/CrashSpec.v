(** What makes a command crash (panic) instead of reporting an error *)
From Coq Require Import String Ascii List Bool.
From Verif.Model Require Import GoString Octopus Json JsonText Ojson OjsonText Staruml StarumlText Mysql Cli.
From Verif.Spec Require Import Text CliSpec FormatSpec OjsonSpec StarumlSpec ProtobufSpec KotlinSpec GroupSpec EndSpec.
Import ListNotations.
Local Open Scope string_scope.

(** the options of the command that name schema files, of this or of the former version *)
Definition names_schema (c : command) (opt : string) : Prop :=
  In c [DiffFlyway; DiffLiquibase; DiffMd] /\ In opt ["from"; "to"] \/
  In c [ImportOjson; ExportDbml; ExportQuickdbd; ExportMysql; ExportXlsx; GenerateGorm; GenerateGraphql; GenerateKt;
        GenerateLiquibase; GeneratePlantuml; GeneratePb; GenerateSqlalchemy] /\ opt = "input".

(** some part of a comma separated list has a colon, and some part has none *)
Definition mixed_pairs (opt : string) : Prop := char_in ":" opt /\ exists part, listed opt part /\ ~ char_in ":" part.

(** an index of the table is on an expression *)
Definition on_expression (s : my_stmt) (name : string) : Prop :=
  exists cds ks, s = SCreateTable name cds ks /\ In KExpr ks.

Section Causes.
Variables (w : world) (fs : files) (v : values).

Inductive crash_cause : command -> Prop :=
(** null in place of a table or a column *)
| cause_null : forall c opt text j, names_schema c opt -> fs (given v opt) = Some text -> read_text text = Some j ->
    null_table j \/ null_part "columns" j -> crash_cause c
(** option texts such as "a:b,c" *)
| cause_prefix : forall c, In c [GenerateGorm; GenerateKt; GeneratePb; GenerateSqlalchemy] ->
    mixed_pairs (given v "prefix") -> crash_cause c
| cause_annotation : mixed_pairs (given v "annotation") -> crash_cause GenerateKt
(** an index on an expression in a table that is not excluded *)
| cause_expression : forall text stmts s name, fs (given v "input") = Some text -> w_sql w text = Some stmts ->
    In s stmts -> on_expression s name -> ~ listed (given v "excludes") name -> crash_cause ImportMysql
(** a column without a name in a file of the former version *)
| cause_unnamed : forall text j s k, fs (given v "input") = Some text -> read_text text = Some j ->
    v1_from_json (without_nulls j) = Some s -> In k (v1_columns s) -> v1_known (o_type k) -> o_name k = "" ->
    crash_cause ImportOjson
(** null in place of an element, or a reference to an element that is not there *)
| cause_project : forall text root, fs (given v "input") = Some text -> st_from_text (w_float_ok w) text = Some root ->
    ~ (no_null root /\ references_ok root) -> crash_cause ImportStaruml
(** a reference to a table that is not there *)
| cause_dangling : forall s t k r, load_file w fs (given v "input") = Loaded s -> In t (s_tables s) ->
    chosen (given v "groups") t -> In k (t_cols t) -> c_ref k = Some r ->
    (forall u, In u (s_tables s) -> t_name u <> ref_table r) -> crash_cause GeneratePb
(** a repository for a table without primary key *)
| cause_keyless : forall s t, load_file w fs (given v "input") = Loaded s -> In t (s_tables s) ->
    chosen (given v "groups") t -> given v "reposPackage" <> "" -> keys t = [] -> crash_cause GenerateKt.
End Causes.
