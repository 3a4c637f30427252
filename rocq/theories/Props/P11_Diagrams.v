(** Properties of the PlantUML, QuickDBD and GraphQL texts *)
From Coq Require Import String Ascii List NArith Bool.
From Verif.Model Require Import GoString Octopus Common Plantuml Quickdbd Graphql.
From Verif.Spec Require Import Text Reading OctopusSpec DbmlSpec PlantumlSpec QuickdbdSpec GraphqlSpec.
From Verif.Proofs Require Import PlantumlProofs QuickdbdProofs GraphqlProofs.
Import ListNotations.
Local Open Scope string_scope.

(** C42. Full statement: for every schema. Here for schemas whose table, column and type names are
    plain words; other names would need quoting, which the generator does not do. The reader accepts
    only texts that start with @startuml and end with @enduml. *)
Theorem C42_diagram_partial : forall s, puml_ok s -> exists es,
  read_puml (puml_text s) = Some (es, map relation_described (schema_links s)) /\
  Forall2 entity_described (s_tables s) es.
Proof. exact puml_reads. Qed.
Print Assumptions C42_diagram_partial.

(** As stated it is false: with a line break in a name, two schemas with different columns have the same text. *)
Theorem C42_refuted : exists s1 s2, valid_schema s1 /\ valid_schema s2 /\ puml_text s1 = puml_text s2 /\
  length (columns_of s1) <> length (columns_of s2).
Proof. exact puml_ambiguous. Qed.
Print Assumptions C42_refuted.

Example C42_case : puml_ok puml_user /\ puml_text puml_user =
"@startuml
entity group {
    * id: int64 <<PK>>
    --
    name: varchar <<UQ>>
}
entity user {
    * group_id: int64 <<PK>> <<FK>>
    * no: int32 <<PK>>
}
user }o-|| group
@enduml".
Proof. split; [exact puml_user_ok|]. vm_compute. reflexivity. Qed.

(** C43. Full statement: for every schema. Here names are plain words, default values contain no space
    and no text contains a line break. *)
Theorem C43_text_partial : forall s, qdbd_ok s ->
  read_qdbd (qdbd_text s) = Some (map qtable_of (s_tables s)).
Proof. exact qdbd_reads. Qed.
Print Assumptions C43_text_partial.

(** As stated it is false: with a line break in a description, two schemas with different columns have the same text. *)
Theorem C43_refuted : exists s1 s2, valid_schema s1 /\ valid_schema s2 /\ qdbd_text s1 = qdbd_text s2 /\
  length (columns_of s1) <> length (columns_of s2).
Proof. exact qdbd_ambiguous. Qed.
Print Assumptions C43_refuted.

Example C43_case : qdbd_ok qdbd_user /\ qdbd_text qdbd_user =
"group # Group table
-----
id int64 PK AUTOINCREMENT # unique id
name varchar UNIQUE default=none # group name

user
----
group_id int64 NULLABLE FK >- group.id
".
Proof. split; [exact qdbd_user_ok|]. vm_compute. reflexivity. Qed.

(** C48, for every choice of the naming functions, every group filter and prefix option. All names that
    end up in the text have to be words. One type per selected table, one field per column in order, the
    sole primary key column has type ID!, any other field is non-null exactly if the column is, and the
    Query type lists every generated type. *)
Theorem C48_types : forall to_camel to_lower_camel plural f remove pm s,
  gql_names_ok to_camel to_lower_camel plural (get_prefix pm) remove (filter (passes f) (s_tables s)) ->
  exists query types,
    read_graphql (gql_text to_camel to_lower_camel plural f remove pm s) =
      Some (GSchema [("query", GName "Query")] :: GType "Query" query :: types) /\
    Forall2 (type_described to_camel to_lower_camel (get_prefix pm) remove) (filter (passes f) (s_tables s)) types /\
    query = map (fun t => (plural (to_lower_camel (type_named to_camel (get_prefix pm) remove t)),
                           GList (type_named to_camel (get_prefix pm) remove t))) (filter (passes f) (s_tables s)).
Proof. exact graphql_reads. Qed.
Print Assumptions C48_types.

Example C48_case :
  gql_names_ok (fun x => x) (fun x => x) (fun x => x ++ "s") (get_prefix (mkPM "" [] false)) []
    (filter (passes None) (s_tables gql_user)) /\
  gql_text (fun x => x) (fun x => x) (fun x => x ++ "s") None [] (mkPM "" [] false) gql_user =
"schema {
    query: Query
}

type Query {
  UserGroups: [UserGroup]
  members: [member]
}

type UserGroup {
  id: ID!
  name: String!
  rate: Float
}

type member {
  uid: Int!
  gid: Int
}
".
Proof. split; [exact gql_user_ok|]. vm_compute. reflexivity. Qed.
