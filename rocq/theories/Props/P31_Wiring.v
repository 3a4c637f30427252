(** The options of the exporters and generators (C106) *)
From Coq Require Import String Ascii List NArith ZArith Bool Sorting.Permutation.
From Verif.Model Require Import GoString Util Octopus Common Liquibase Cli.
From Verif.Spec Require Import Text OctopusSpec CommonSpec CliSpec OptionsSpec GroupSpec EndSpec WiringSpec.
From Verif.Spec Require Reading GormSpec GraphqlSpec ProtobufSpec SqlalchemySpec KotlinSpec DbmlSpec QuickdbdSpec PlantumlSpec Database LiquibaseSpec.
From Verif.Proofs Require Import CliCases WiringProofs WiringCases.
Import ListNotations.
Local Open Scope string_scope.

(** C106. The file of "generate gorm" describes the chosen tables, with the values of the options in the places they are
    meant for. *)
Theorem C106_gorm : forall w fs v ws, real_world w -> run w fs GenerateGorm v = (ws, Done) ->
  exists s prefix remove ts ms pointer path text,
    load_file w fs (given v "input") = Loaded s /\ ws = [(path, text)] /\
    prefix_for (given v "prefix") prefix /\ parts_of "," (given v "removePrefix") remove /\
    picked (chosen (given v "groups")) (s_tables s) ts /\ models_with (given v "embed") ms /\
    (pointer = true <-> switched_on v "pointerAssociation") /\
    (GormSpec.go_names_ok (w_camel w) prefix remove (given v "uniqueNameSuffix") (s_tables s) ts ->
     Reading.one_line (given v "package") ->
     exists f, GormSpec.read_go text = Some f /\
       GormSpec.gf_package f = (if String.eqb (given v "package") "" then "main" else given v "package") /\
       Forall2 (GormSpec.decl_described (w_camel w) (w_snake w) prefix remove pointer (given v "uniqueNameSuffix") ms (s_tables s))
         ts (GormSpec.gf_decls f)).
Proof. exact gorm_command. Qed.
Print Assumptions C106_gorm.

Example C106_gorm_case :
  load_file wx_world wx_files (given wx_gorm "input") = Loaded wx_loaded /\ snd (run wx_world wx_files GenerateGorm wx_gorm) = Done /\
  prefix_for (given wx_gorm "prefix") wx_prefix /\ parts_of "," (given wx_gorm "removePrefix") wx_remove /\
  picked (chosen (given wx_gorm "groups")) (s_tables wx_loaded) [wx_user] /\
  embeds (given wx_gorm "embed") "Base" ["id"; "seen"] /\ switched_on wx_gorm "pointerAssociation" /\
  GormSpec.go_names_ok (w_camel wx_world) wx_prefix wx_remove (given wx_gorm "uniqueNameSuffix") (s_tables wx_loaded) [wx_user] /\
  Reading.one_line (given wx_gorm "package").
Proof. exact wx_gorm_case. Qed.

(** the files of "generate kt" *)
Theorem C106_kt : forall w fs v ws, run w fs GenerateKt v = (ws, Done) ->
  exists s annos prefix remove ts,
    load_file w fs (given v "input") = Loaded s /\ annotations_for (given v "annotation") annos /\
    prefix_for (given v "prefix") prefix /\ parts_of "," (given v "removePrefix") remove /\
    picked (chosen (given v "groups")) (s_tables s) ts /\
    forall wanted,
      KotlinSpec.kt_names_ok (w_camel w) (w_lower_camel w) prefix remove (given v "idEntity") (given v "relation") (given v "uniqueNameSuffix") ts ->
      KotlinSpec.package_ok (given v "package") ->
      (forall t, In t ts -> KotlinSpec.annotations (annos (t_group t)) (wanted (t_group t))) ->
      (given v "reposPackage" = "" \/ KotlinSpec.package_ok (given v "reposPackage") /\ forall t, In t ts -> KotlinSpec.keys t <> []) ->
      exists entities repos, ws = (entities ++ repos)%list /\
        Forall2 (fun t file =>
           fst file = w_join w [w_join w (given v "output" :: Reading.split_on "." (given v "package"));
                                KotlinSpec.class_named (w_camel w) prefix remove t ++ ".kt"] /\
           exists f, KotlinSpec.read_kotlin (snd file) = Some f /\ KotlinSpec.ki_package f = Reading.split_on "." (given v "package") /\
             KotlinSpec.entity_described (w_camel w) (w_lower_camel w) (w_snake w) prefix wanted remove (given v "idEntity")
               (given v "relation") (given v "uniqueNameSuffix") ts t (KotlinSpec.ki_decls f)) ts entities /\
        (given v "reposPackage" = "" /\ repos = [] \/
         given v "reposPackage" <> "" /\
         Forall2 (fun t file =>
           fst file = w_join w [w_join w (given v "output" :: Reading.split_on "." (given v "reposPackage"));
                                KotlinSpec.class_named (w_camel w) prefix remove t ++ "Repository.kt"] /\
           exists f, KotlinSpec.read_kotlin (snd file) = Some f /\ KotlinSpec.ki_package f = Reading.split_on "." (given v "reposPackage") /\
             KotlinSpec.repository_described (w_camel w) prefix remove (Reading.split_on "." (given v "package")) t f) ts repos).
Proof. exact kt_command. Qed.
Print Assumptions C106_kt.

Example C106_kt_case :
  load_file wx_world wx_files (given wx_kt "input") = Loaded wx_loaded /\ snd (run wx_world wx_files GenerateKt wx_kt) = Done /\
  annotations_for (given wx_kt "annotation") wx_annos /\ prefix_for (given wx_kt "prefix") wx_prefix /\
  KotlinSpec.kt_names_ok (w_camel wx_world) (w_lower_camel wx_world) wx_prefix wx_remove (given wx_kt "idEntity") (given wx_kt "relation")
    (given wx_kt "uniqueNameSuffix") [wx_user] /\
  KotlinSpec.package_ok (given wx_kt "package") /\ KotlinSpec.annotations (wx_annos (t_group wx_user)) ["A"; "B"] /\
  KotlinSpec.package_ok (given wx_kt "reposPackage") /\ KotlinSpec.keys wx_user <> [].
Proof. exact wx_kt_case. Qed.

(** the files of "generate sqlalchemy" *)
Theorem C106_sqlalchemy : forall w fs v ws, run w fs GenerateSqlalchemy v = (ws, Done) ->
  exists s prefix remove ts utc,
    load_file w fs (given v "input") = Loaded s /\ prefix_for (given v "prefix") prefix /\
    parts_of "," (given v "removePrefix") remove /\ picked (chosen (given v "groups")) (s_tables s) ts /\
    (utc = true <-> switched_on v "useUTC") /\
    (SqlalchemySpec.py_names_ok (w_camel w) (w_snake w) prefix remove (given v "uniqueNameSuffix") ts ->
     (SqlalchemySpec.python_path (given v "output") -> exists text f,
        ws = [(given v "output", text)] /\ SqlalchemySpec.read_python text = Some f /\ SqlalchemySpec.names_known f /\
        SqlalchemySpec.file_described (w_camel w) (w_snake w) prefix remove (given v "uniqueNameSuffix") utc ts f) /\
     (~ SqlalchemySpec.python_path (given v "output") -> (forall t, In t ts -> t_cols t <> []) ->
        Forall2 (fun t file => fst file = given v "output" ++ "/" ++ t_name t ++ ".py" /\
            exists f, SqlalchemySpec.read_python (snd file) = Some f /\
              SqlalchemySpec.file_described (w_camel w) (w_snake w) prefix remove (given v "uniqueNameSuffix") utc [t] f) ts ws)).
Proof. exact sqlalchemy_command. Qed.
Print Assumptions C106_sqlalchemy.

Example C106_sqlalchemy_case :
  load_file wx_world wx_files (given wx_sa "input") = Loaded wx_loaded /\ snd (run wx_world wx_files GenerateSqlalchemy wx_sa) = Done /\
  switched_on wx_sa "useUTC" /\
  SqlalchemySpec.py_names_ok (w_camel wx_world) (w_snake wx_world) wx_prefix wx_remove (given wx_sa "uniqueNameSuffix") [wx_user].
Proof. exact wx_sa_case. Qed.

(** the file of "generate pb"; the labels of one-to-many fields are left out, see C61 *)
Theorem C106_pb : forall w fs v ws, run w fs GeneratePb v = (ws, Done) ->
  exists s prefix remove ts text,
    load_file w fs (given v "input") = Loaded s /\ ws = [(given v "output", text)] /\
    prefix_for (given v "prefix") prefix /\ parts_of "," (given v "removePrefix") remove /\
    picked (chosen (given v "groups")) (s_tables s) ts /\
    (ProtobufSpec.pb_names_ok (w_camel w) (w_lower_camel w) prefix remove (s_tables s) ts ->
     Reading.one_line (given v "package") -> Reading.one_line (given v "goPackage") ->
     (forall t, In t (s_tables s) -> ProtobufSpec.fits (-1) (length (t_cols t))) ->
     exists l, ProtobufSpec.read_proto text = Some l /\
       ProtobufSpec.proto_described (w_camel w) (w_lower_camel w) prefix remove false (given v "package") (given v "goPackage")
         (s_tables s) ts l).
Proof. exact pb_command. Qed.
Print Assumptions C106_pb.

Example C106_pb_case :
  load_file wx_world wx_files (given wx_pb "input") = Loaded wx_loaded /\ snd (run wx_world wx_files GeneratePb wx_pb) = Done /\
  ProtobufSpec.pb_names_ok (w_camel wx_world) (w_lower_camel wx_world) wx_prefix wx_remove (s_tables wx_loaded) [wx_user] /\
  Reading.one_line (given wx_pb "package") /\ Reading.one_line (given wx_pb "goPackage") /\
  (forall t, In t (s_tables wx_loaded) -> ProtobufSpec.fits (-1) (length (t_cols t))).
Proof. exact wx_pb_case. Qed.

(** the change log of "generate liquibase" *)
Theorem C106_liquibase : forall w fs v ws, run w fs GenerateLiquibase v = (ws, Done) ->
  exists s ts css comments,
    load_file w fs (given v "input") = Loaded s /\ ws = [(given v "output", w_yaml w css)] /\
    picked (chosen (given v "groups")) (s_tables s) ts /\ (comments = true <-> switched_on v "comments") /\
    (forall t cols n, In (LqAddUniqueConstraint t cols n) (LiquibaseSpec.lq_all css) -> n = t ++ given v "uniqueNameSuffix") /\
    (NoDup (map t_name ts) -> (forall t, In t ts -> Database.well_formed t) -> forall sv,
     exists bs, Database.run_log sv css [] = Some bs /\ Forall2 (Database.fresh_table (w_float_ok w) comments) ts bs).
Proof. exact liquibase_generated. Qed.
Print Assumptions C106_liquibase.

(** "generate graphql" has none of these options *)
Theorem C106_graphql : forall w fs v ws, run w fs GenerateGraphql v = (ws, Done) ->
  exists s path text,
    load_file w fs (given v "input") = Loaded s /\ ws = [(path, text)] /\
    let prefix := fun _ => "" in let remove := [""] in
    (GraphqlSpec.gql_names_ok (w_camel w) (w_lower_camel w) (w_plural w) prefix remove (s_tables s) ->
     exists query types,
       GraphqlSpec.read_graphql text =
         Some (GraphqlSpec.GSchema [("query", GraphqlSpec.GName "Query")] :: GraphqlSpec.GType "Query" query :: types) /\
       Forall2 (GraphqlSpec.type_described (w_camel w) (w_lower_camel w) prefix remove) (s_tables s) types /\
       query = map (fun t => (w_plural w (w_lower_camel w (GraphqlSpec.type_named (w_camel w) prefix remove t)),
                              GraphqlSpec.GList (GraphqlSpec.type_named (w_camel w) prefix remove t))) (s_tables s)).
Proof. exact graphql_command. Qed.
Print Assumptions C106_graphql.

(** the files of the commands without such options *)
Theorem C106_dbml : forall w fs v ws, run w fs ExportDbml v = (ws, Done) ->
  exists s text, load_file w fs (given v "input") = Loaded s /\ ws = [(given v "output", text)] /\
    (DbmlSpec.dbml_ok s -> exists ds ls,
       DbmlSpec.read_dbml text = Some (map DbmlSpec.ITable ds ++ map DbmlSpec.IRef ls)%list /\
       DbmlSpec.tables_described [] (s_tables s) ds /\
       Sorting.Permutation.Permutation (flat_map DbmlSpec.inline_links ds ++ ls) (DbmlSpec.schema_links s)).
Proof. exact dbml_command. Qed.
Print Assumptions C106_dbml.

Theorem C106_quickdbd : forall w fs v ws, run w fs ExportQuickdbd v = (ws, Done) ->
  exists s text, load_file w fs (given v "input") = Loaded s /\ ws = [(given v "output", text)] /\
    (QuickdbdSpec.qdbd_ok s -> QuickdbdSpec.read_qdbd text = Some (map QuickdbdSpec.qtable_of (s_tables s))).
Proof. exact quickdbd_command. Qed.
Print Assumptions C106_quickdbd.

Theorem C106_plantuml : forall w fs v ws, run w fs GeneratePlantuml v = (ws, Done) ->
  exists s path text, load_file w fs (given v "input") = Loaded s /\ ws = [(path, text)] /\
    (PlantumlSpec.puml_ok s -> exists es,
       PlantumlSpec.read_puml text = Some (es, map PlantumlSpec.relation_described (DbmlSpec.schema_links s)) /\
       Forall2 PlantumlSpec.entity_described (s_tables s) es).
Proof. exact plantuml_command. Qed.
Print Assumptions C106_plantuml.

Example C106_texts :
  run wx_world wx_files GenerateGorm wx_gorm = ([("m.go",
"package model

import (
)

type PUser struct {
	Base
	Name string `gorm:""type:varchar(40);unique_index:t_user_uq;not null""`
	Mail string `gorm:""type:varchar(40);unique_index:t_user_uq;not null""`
}

func (c *PUser) TableName() string { return ""t_user"" }

")], Done) /\
  run wx_world wx_files GeneratePb wx_pb = ([("m.proto",
"syntax = ""proto3"";

package model;

option go_package = ""pb"";

import ""google/protobuf/timestamp.proto"";

message PUser {
  int64 id = 1;
  string name = 2;
  string mail = 3;
  google.protobuf.Timestamp seen = 4;
}
")], Done) /\
  run wx_world wx_files GenerateLiquibase (wx_values "m.yaml" [("comments", "true")]) = ([("m.yaml",
"1-1 me  createTable t_user  id,bigint,t,t--,,,-,,, name,varchar(40),-,-f-,,,-,,, mail,varchar(40),-,-f-,,,-,,, seen,datetime,-,-f-,,,-,,,; 1-2 me  addUnique t_user mail, name t_user_uq")], Done) /\
  run wx_world wx_files GenerateGraphql (wx_values "out" []) = ([("out/db-1.graphqls",
"schema {
    query: Query
}

type Query {
  tUsers: [TUser]
  tLogs: [TLog]
}

type TUser {
  id: ID!
  name: String!
  mail: String!
  seen: String!
}

type TLog {
  id: ID!
  userId: Int!
}
")], Done).
Proof. vm_compute. repeat split; reflexivity. Qed.
