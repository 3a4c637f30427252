(** Columns added to tables (C131) *)
From Coq Require Import String Ascii List NArith Bool.
From Verif.Model Require Import GoString Util Octopus Common Mysql Quickdbd Plantuml Dbml Graphql.
From Verif.Spec Require Import Text Reading LocalSpec WidenSpec.
From Verif.Proofs Require Import LocalProofs WidenProofs WidenCases.
Import ListNotations.
Local Open Scope string_scope.

(** C131. If columns are added to tables, the lines of a generated file stay and lines are added. True of QuickDBD and DBML. *)
Theorem C131_quickdbd_partial : forall s s', widened s s' -> only_adds (qdbd_text s) (qdbd_text s').
Proof. exact quickdbd_widens. Qed.
Print Assumptions C131_quickdbd_partial.

Theorem C131_dbml_partial : forall f s s', widened s s' -> only_adds (export_dbml f s) (export_dbml f s').
Proof. exact dbml_widens. Qed.
Print Assumptions C131_dbml_partial.

(** False of GraphQL: with a second column in the primary key the first one is no longer of type ID. *)
Theorem C131_graphql_refuted : exists s s', widened s s' /\
  ~ only_adds (gql_text same_word same_word same_word None [] (mkPM "" [] false) s) (gql_text same_word same_word same_word None [] (mkPM "" [] false) s').
Proof. exact graphql_not. Qed.
Print Assumptions C131_graphql_refuted.

(** True if the primary keys stay as they are. *)
Theorem C131_graphql_partial : forall camel lower_camel plural g remove pm s s', widened s s' ->
  Forall2 key_kept (s_tables s) (s_tables s') ->
  only_adds (gql_text camel lower_camel plural (get_table_filter g) remove pm s)
    (gql_text camel lower_camel plural (get_table_filter g) remove pm s').
Proof. exact graphql_widens. Qed.
Print Assumptions C131_graphql_partial.

(** False of PlantUML, even if all keys stay: a column before the primary key moves the line that separates the key from
    the rest. *)
Theorem C131_plantuml_refuted : exists s s', widened s s' /\ Forall2 keys_kept (s_tables s) (s_tables s') /\
  ~ only_adds (puml_text s) (puml_text s').
Proof. exact plantuml_not. Qed.
Print Assumptions C131_plantuml_refuted.

(** True if the columns of the primary keys are the first ones of their tables. *)
Theorem C131_plantuml_partial : forall s s', widened s s' -> (forall t, In t (s_tables s') -> key_first t) ->
  only_adds (puml_text s) (puml_text s').
Proof. exact plantuml_widens. Qed.
Print Assumptions C131_plantuml_partial.

(** False of MySQL, even if the primary keys stay: the last column of a table without keys gets a comma. *)
Theorem C131_mysql_refuted : exists s s', widened s s' /\ Forall2 key_kept (s_tables s) (s_tables s') /\
  ~ only_adds (my_export None "" s) (my_export None "" s').
Proof. exact mysql_not. Qed.
Print Assumptions C131_mysql_refuted.

(** True if the keys stay and each table has a key or an index. *)
Theorem C131_mysql_partial : forall g suffix s s', widened s s' -> Forall2 keys_kept (s_tables s) (s_tables s') ->
  only_adds (my_export (get_table_filter g) suffix s) (my_export (get_table_filter g) suffix s').
Proof. exact mysql_widens. Qed.
Print Assumptions C131_mysql_partial.

(** Columns are added at the end of one table and in the middle of the other one. *)
Definition wd_old : schema := wd_schema [wd_id; wd_boss] [wd_id; wd_name].
Definition wd_new : schema := wd_schema [wd_id; wd_boss; wd_mail] [wd_id; wd_boss; wd_name].
Example C131_case : widened wd_old wd_new /\ Forall2 key_kept (s_tables wd_old) (s_tables wd_new) /\
  Forall2 keys_kept (s_tables wd_old) (s_tables wd_new) /\ (forall t, In t (s_tables wd_new) -> key_first t) /\
  (length (file_lines (puml_text wd_old)), length (file_lines (puml_text wd_new))) = (13, 16).
Proof.
  refine (conj _ (conj _ (conj _ (conj _ _)))).
  - apply wd_widened; added.
  - constructor; [|constructor; [|constructor]]; reflexivity.
  - constructor; [|constructor; [|constructor]]; (split; [reflexivity|]; split; [reflexivity|]; left; discriminate).
  - intros t [<-|[<-|[]]].
    + exists [wd_id], [wd_boss; wd_mail]. split; [reflexivity|]. split; intros c I; cbn in I;
        repeat (destruct I as [<-|I]; [reflexivity|]); destruct I.
    + exists [wd_id], [wd_boss; wd_name]. split; [reflexivity|]. split; intros c I; cbn in I;
        repeat (destruct I as [<-|I]; [reflexivity|]); destruct I.
  - vm_compute. reflexivity.
Qed.
Example C131_plantuml_case : only_adds (puml_text wd_old) (puml_text wd_new).
Proof. exact (C131_plantuml_partial _ _ (proj1 C131_case) (proj1 (proj2 (proj2 (proj2 C131_case))))). Qed.
