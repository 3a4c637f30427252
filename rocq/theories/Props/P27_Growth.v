(** Adding tables to a schema (C97, C98) *)
From Coq Require Import String Ascii List NArith ZArith Bool.
From Verif.Model Require Import GoString Util Octopus Common Strcase Mysql Quickdbd Plantuml Dbml Graphql Protobuf Gorm Xlsx.
From Verif.Model Require Sqlalchemy Jpa Liquibase.
From Verif.Spec Require Import Text Reading OctopusSpec CommonSpec DiffSpec GormSpec LocalSpec.
From Verif.Proofs Require Import LocalProofs LocalCases NamesCases.
Import ListNotations.
Local Open Scope string_scope.

(** C97. Statements of MySQL, of QuickDBD, of PlantUML and of GraphQL: whatever is added. *)
Theorem C97_mysql : forall f suffix s s', grown s s' -> only_adds (my_export f suffix s) (my_export f suffix s').
Proof. exact mysql_grows. Qed.
Print Assumptions C97_mysql.

Theorem C97_quickdbd : forall s s', grown s s' -> only_adds (qdbd_text s) (qdbd_text s').
Proof. exact quickdbd_grows. Qed.
Print Assumptions C97_quickdbd.

Theorem C97_plantuml : forall s s', grown s s' -> only_adds (puml_text s) (puml_text s').
Proof. exact plantuml_grows. Qed.
Print Assumptions C97_plantuml.

Theorem C97_graphql : forall camel lower_camel plural f remove pm s s', grown s s' ->
  only_adds (gql_text camel lower_camel plural f remove pm s) (gql_text camel lower_camel plural f remove pm s').
Proof. exact graphql_grows. Qed.
Print Assumptions C97_graphql.

(** Where references are resolved: whatever is added that was not referred to before. *)
Theorem C97_dbml : forall f s s', grown s s' -> same_targets s s' -> only_adds (export_dbml f s) (export_dbml f s').
Proof. exact dbml_grows. Qed.
Print Assumptions C97_dbml.

Theorem C97_protobuf : forall camel lower_camel o s s' text', grown s s' -> same_targets s s' ->
  pb_generate camel lower_camel o s' = Ok text' ->
  exists text, pb_generate camel lower_camel o s = Ok text /\ only_adds text text'.
Proof. exact protobuf_grows. Qed.
Print Assumptions C97_protobuf.

(** Structs of GORM: whatever the orders of map iteration are in the two runs, if no table has the columns of two models. *)
Theorem C97_gorm : forall camel snake om on om' on',
  (forall k, iteration_order (om k)) -> (forall k, iteration_order (on k)) ->
  (forall k, iteration_order (om' k)) -> (forall k, iteration_order (on' k)) ->
  forall m o s s', NoDup (map fst m) -> grown s s' -> same_targets s s' ->
  (forall t, In t (s_tables s) -> selected (go_filter o) t -> one_fits (embed_models m (go_embed o)) t) ->
  only_adds (fst (gorm_generate camel snake om on m o s)) (fst (gorm_generate camel snake om' on' m o s')).
Proof. exact gorm_grows. Qed.
Print Assumptions C97_gorm.

(** The files of Kotlin: those that were there are the same, to the byte. *)
Theorem C97_kotlin : forall camel lower_camel snake path_join o s s', same_targets s s' -> forall output files', grown s s' ->
  Jpa.kt_generate camel lower_camel snake path_join o s' output = (files', Jpa.KtDone) ->
  exists files, Jpa.kt_generate camel lower_camel snake path_join o s output = (files, Jpa.KtDone) /\ sub files files'.
Proof. exact kotlin_grows. Qed.
Print Assumptions C97_kotlin.

(** The workbook: sheets are added, and rows to the sheets. *)
Theorem C97_xlsx : forall name_ok use_null s s' wb', grown s s' -> export_xlsx name_ok use_null s' = Some wb' ->
  exists wb, export_xlsx name_ok use_null s = Some wb /\ sub (map fst wb) (map fst wb') /\
    forall name rows, In (name, rows) wb -> exists rows', In (name, rows') wb' /\ sub rows rows'.
Proof. exact xlsx_grows. Qed.
Print Assumptions C97_xlsx.

Example C97_case : grown lo_old lo_new /\ same_targets lo_old lo_new /\ length (s_tables lo_new) = (length (s_tables lo_old) + 2)%nat /\
  export_dbml None lo_old =
"Table user {
  id int64 [pk, not null]
  name varchar(40) [not null]
}

Table post {
  id int64 [pk, not null]
  author int64 [not null, ref: > user.id]
}

" /\
  export_dbml None lo_new =
"Table login {
  id int64 [pk, not null]
  at datetime [not null]
  who int64 [not null]
}

Table user {
  id int64 [pk, not null]
  name varchar(40) [not null]
}

Table comment {
  id int64 [pk, not null]
  post int64 [not null]
}

Table post {
  id int64 [pk, not null]
  author int64 [not null, ref: > user.id]
}

Ref: login.who > user.id
Ref: comment.post > post.id" /\
  (exists text, pb_generate strcase_camel strcase_lower_camel nm_pb lo_new = Ok text) /\
  snd (Jpa.kt_generate strcase_camel strcase_lower_camel strcase_snake (join "/") lo_kt lo_new "out") = Jpa.KtDone /\
  map fst (fst (Jpa.kt_generate strcase_camel strcase_lower_camel strcase_snake (join "/") lo_kt lo_old "out")) =
    ["out/com/octopus/User.kt"; "out/com/octopus/Post.kt"; "out/com/repos/UserRepository.kt"; "out/com/repos/PostRepository.kt"] /\
  option_map (map fst) (export_xlsx (fun _ => true) true lo_new) = Some ["Meta"; "blog"; "common"].
Proof.
  destruct lo_grown as [G T]. split; [exact G|]. split; [exact T|]. split; [reflexivity|].
  split; [vm_compute; reflexivity|]. split; [vm_compute; reflexivity|].
  split; [destruct (pb_generate strcase_camel strcase_lower_camel nm_pb lo_new) as [x|] eqn:E; [now exists x|vm_compute in E; discriminate]|].
  split; [vm_compute; reflexivity|]. split; vm_compute; reflexivity.
Qed.

(** A table that was referred to before it existed moves the reference into the column. *)
Example C97_target_case : grown lo_part lo_old /\ ~ only_adds (export_dbml None lo_part) (export_dbml None lo_old).
Proof. split; [exact lo_part_grown|]. unfold only_adds. apply (sub_not String.eqb String.eqb_spec). vm_compute. reflexivity. Qed.

(** C98. False of SQLAlchemy: the line that imports the types changes, *)
Theorem C98_sqlalchemy_file_refuted : exists camel snake o s s', grown s s' /\ same_targets s s' /\
  ~ only_adds (Sqlalchemy.sa_single camel snake o s) (Sqlalchemy.sa_single camel snake o s').
Proof. exact python_file_changes. Qed.
Print Assumptions C98_sqlalchemy_file_refuted.

(** and with one file per table the file of the table that was the first loses the import of Column; *)
Theorem C98_sqlalchemy_files_refuted : exists camel snake o s s', grown s s' /\ same_targets s s' /\
  ~ sub (Sqlalchemy.sa_separate camel snake o s) (Sqlalchemy.sa_separate camel snake o s').
Proof. exact python_files_change. Qed.
Print Assumptions C98_sqlalchemy_files_refuted.

(** and false of Liquibase: the change sets behind the added table get other ids. *)
Theorem C98_liquibase_refuted : exists float o s s' r r', grown s s' /\ same_targets s s' /\
  Liquibase.lq_generate float o s = Some r /\ Liquibase.lq_generate float o s' = Some r' /\ ~ sub r r'.
Proof. exact liquibase_changes. Qed.
Print Assumptions C98_liquibase_refuted.

(** Nothing else changes: the lines that are no imports stay, *)
Theorem C98_sqlalchemy_file_partial : forall camel snake o s s', grown s s' ->
  sub (besides_imports (Sqlalchemy.sa_single camel snake o s)) (besides_imports (Sqlalchemy.sa_single camel snake o s')).
Proof. exact single_grows. Qed.
Print Assumptions C98_sqlalchemy_file_partial.

Theorem C98_sqlalchemy_files_partial : forall camel snake o s s', grown s s' ->
  sub (map (fun f => (fst f, besides_imports (snd f))) (Sqlalchemy.sa_separate camel snake o s))
      (map (fun f => (fst f, besides_imports (snd f))) (Sqlalchemy.sa_separate camel snake o s')).
Proof. exact separate_grows. Qed.
Print Assumptions C98_sqlalchemy_files_partial.

(** and the files are the same if the first table stays the first. *)
Theorem C98_same_first_partial : forall camel snake o s s' t ts ts',
  filter (passes (Sqlalchemy.so_filter o)) (s_tables s) = t :: ts ->
  filter (passes (Sqlalchemy.so_filter o)) (s_tables s') = t :: ts' -> sub ts ts' ->
  sub (Sqlalchemy.sa_separate camel snake o s) (Sqlalchemy.sa_separate camel snake o s').
Proof. exact separate_exact. Qed.
Print Assumptions C98_same_first_partial.

(** The change sets are the same but for their ids, and wholly the same if the tables are added at the end. *)
Theorem C98_liquibase_partial : forall float o s s' r', grown s s' -> Liquibase.lq_generate float o s' = Some r' ->
  exists r, Liquibase.lq_generate float o s = Some r /\ sub (map what_changes r) (map what_changes r').
Proof. exact liquibase_grows. Qed.
Print Assumptions C98_liquibase_partial.

Theorem C98_appended_partial : forall float o s s' more r', s_author s' = s_author s -> s_tables s' = (s_tables s ++ more)%list ->
  Liquibase.lq_generate float o s' = Some r' -> exists r rest, Liquibase.lq_generate float o s = Some r /\ r' = (r ++ rest)%list.
Proof. exact liquibase_appends. Qed.
Print Assumptions C98_appended_partial.

Example C98_case : grown lo_old lo_new /\ same_targets lo_old lo_new /\ s_tables lo_late = (s_tables lo_old ++ [lo_comment])%list /\
  map (fun f => (fst f, hd "" (lines (snd f)))) (Sqlalchemy.sa_separate strcase_camel strcase_snake lo_py lo_old) =
    [("user.py", "from sqlalchemy import BigInteger, Column, String"); ("post.py", "from sqlalchemy import BigInteger")] /\
  map (fun f => (fst f, hd "" (lines (snd f)))) (Sqlalchemy.sa_separate strcase_camel strcase_snake lo_py lo_new) =
    [("login.py", "from datetime import datetime"); ("user.py", "from sqlalchemy import BigInteger, String");
     ("comment.py", "from sqlalchemy import BigInteger"); ("post.py", "from sqlalchemy import BigInteger")] /\
  option_map (map (fun c => (Liquibase.lq_id c, length (Liquibase.lq_changes c)))) (Liquibase.lq_generate (fun _ => true) lo_lq lo_old) = Some [("1-1", 1); ("2-1", 1)]%nat /\
  option_map (map Liquibase.lq_id) (Liquibase.lq_generate (fun _ => true) lo_lq lo_late) = Some ["1-1"; "2-1"; "3-1"].
Proof.
  destruct lo_grown as [G T]. split; [exact G|]. split; [exact T|]. split; [reflexivity|].
  split; [vm_compute; reflexivity|]. split; [vm_compute; reflexivity|]. split; vm_compute; reflexivity.
Qed.
