(** The names in generated files (C95, C96) *)
From Coq Require Import String Ascii List NArith Bool.
From Verif.Model Require Import GoString Util Octopus Common Strcase Gorm Graphql Protobuf.
From Verif.Model Require Sqlalchemy Jpa.
From Verif.Spec Require Import Text Reading OctopusSpec CommonSpec DiffSpec GraphqlSpec ProtobufSpec GormSpec NamesSpec.
From Verif.Spec Require SqlalchemySpec KotlinSpec.
From Verif.Proofs Require Import NamesProofs StrcaseProofs NamesCases.
Import ListNotations.
Local Open Scope string_scope.

(** C95. False: a table with two references to one table gets a message with two fields of one name, whatever the names
    are, *)
Theorem C95_protobuf_refuted : forall camel lower_camel o s text l t, one_line (po_package o) -> one_line (po_go_package o) ->
  pb_names_ok camel lower_camel (get_prefix (po_prefix o)) (po_remove o) (s_tables s) (filter (passes (po_filter o)) (s_tables s)) ->
  (forall t, In t (s_tables s) -> fits (po_start o) (length (t_cols t))) ->
  In t (filter (passes (po_filter o)) (s_tables s)) -> ~ NoDup (map ref_table (table_refs t)) ->
  pb_generate camel lower_camel o s = Ok text -> read_proto text = Some l -> ~ pb_members_distinct l.
Proof. exact pb_two_references. Qed.
Print Assumptions C95_protobuf_refuted.

(** and a struct with two fields of one name. *)
Theorem C95_gorm_refuted : forall camel snake om on m o,
  (forall k, iteration_order (om k)) -> (forall k, iteration_order (on k)) -> forall s f t c c' r r' u d d', models_ok m ->
  go_names_ok camel (get_prefix (go_prefix o)) (go_remove o) (go_suffix o) (s_tables s) (filter (passes (go_filter o)) (s_tables s)) ->
  one_line (go_package o) ->
  In t (filter (passes (go_filter o)) (s_tables s)) -> (exists a b e, t_cols t = (a ++ c :: b ++ c' :: e)%list) ->
  leads_to (s_tables s) c r u d -> leads_to (s_tables s) c' r' u d' ->
  read_go (fst (gorm_generate camel snake om on m o s)) = Some f -> ~ go_members_distinct f.
Proof. exact go_two_references. Qed.
Print Assumptions C95_gorm_refuted.

Example C95_twice_case : distinct_names nm_twice /\
  pb_generate strcase_camel strcase_lower_camel nm_pb nm_twice = Ok
"syntax = ""proto3"";



message User {
  int64 id = 1;
}

message Trip {
  int64 id = 1;
  int64 driverId = 2;
  int64 riderId = 3;
  User user = 4;
  User user = 5;
}
" /\
  fst (gorm_generate strcase_camel strcase_snake (fun _ l => l) (fun _ l => l) default_models nm_go nm_twice) =
"package main

import (
)

type User struct {
	ID int64 `gorm:""primary_key;auto_increment""`
}

func (c *User) TableName() string { return ""user"" }

type Trip struct {
	ID int64 `gorm:""primary_key;auto_increment""`
	DriverID int64 `gorm:""not null""`
	RiderID int64 `gorm:""not null""`
	User User `gorm:""foreignKey:DriverID;references:ID""`
	User User `gorm:""foreignKey:RiderID;references:ID""`
}

func (c *Trip) TableName() string { return ""trip"" }

".
Proof. split; [apply names_checked; vm_compute; reflexivity|]. split; vm_compute; reflexivity. Qed.

(** With the naming functions of the library each generator has a table with distinct columns whose members clash:
    columns [user_name] and [userName]; for GORM a column [table_name] and the method TableName; for SQLAlchemy columns
    [from] and [from_]. *)
Theorem C95_columns_refuted :
  (exists o s text l, distinct_names s /\ pb_generate strcase_camel strcase_lower_camel o s = Ok text /\ read_proto text = Some l /\ ~ pb_members_distinct l) /\
  (exists o s f, distinct_names s /\
     read_go (fst (gorm_generate strcase_camel strcase_snake (fun _ l => l) (fun _ l => l) default_models o s)) = Some f /\ ~ go_members_distinct f) /\
  (exists s l, distinct_names s /\
     read_graphql (gql_text strcase_camel strcase_lower_camel (fun n => n ++ "s") None [] (mkPM "" [] false) s) = Some l /\ ~ gql_members_distinct l) /\
  (exists o s text f, distinct_names s /\ Sqlalchemy.sa_generate strcase_camel strcase_snake o s "model.py" = [("model.py", text)] /\
     SqlalchemySpec.read_python text = Some f /\ ~ py_members_distinct f) /\
  (exists o s path text f, distinct_names s /\
     In (path, text) (fst (Jpa.kt_generate strcase_camel strcase_lower_camel strcase_snake (join "/") o s "out")) /\
     KotlinSpec.read_kotlin text = Some f /\ ~ kt_members_distinct f).
Proof. exact member_clashes. Qed.
Print Assumptions C95_columns_refuted.

(** The members are distinct if the names of the columns, and of what the references and models add, stay apart. *)
Theorem C95_protobuf_partial : forall camel lower_camel o s text, one_line (po_package o) -> one_line (po_go_package o) ->
  pb_names_ok camel lower_camel (get_prefix (po_prefix o)) (po_remove o) (s_tables s) (filter (passes (po_filter o)) (s_tables s)) ->
  (forall t, In t (s_tables s) -> fits (po_start o) (length (t_cols t))) ->
  (forall t, In t (filter (passes (po_filter o)) (s_tables s)) -> pb_apart camel lower_camel (get_prefix (po_prefix o)) (po_remove o) (s_tables s) t) ->
  pb_generate camel lower_camel o s = Ok text -> exists l, read_proto text = Some l /\ pb_members_distinct l.
Proof. exact pb_members. Qed.
Print Assumptions C95_protobuf_partial.

Theorem C95_gorm_partial : forall camel snake om on m o,
  (forall k, iteration_order (om k)) -> (forall k, iteration_order (on k)) -> forall s, models_ok m ->
  go_names_ok camel (get_prefix (go_prefix o)) (go_remove o) (go_suffix o) (s_tables s) (filter (passes (go_filter o)) (s_tables s)) ->
  one_line (go_package o) ->
  (forall t, In t (filter (passes (go_filter o)) (s_tables s)) ->
     go_apart camel (get_prefix (go_prefix o)) (go_remove o) (embed_models m (go_embed o)) (s_tables s) t) ->
  exists f, read_go (fst (gorm_generate camel snake om on m o s)) = Some f /\ go_members_distinct f.
Proof. exact go_members. Qed.
Print Assumptions C95_gorm_partial.

Theorem C95_graphql_partial : forall camel lower_camel plural f remove pm s,
  gql_names_ok camel lower_camel plural (get_prefix pm) remove (filter (passes f) (s_tables s)) ->
  (forall t, In t (filter (passes f) (s_tables s)) -> NoDup (column_names t) /\ apart lower_camel (column_names t)) ->
  NoDup (map (fun t => plural (lower_camel (type_named camel (get_prefix pm) remove t))) (filter (passes f) (s_tables s))) ->
  exists l, read_graphql (gql_text camel lower_camel plural f remove pm s) = Some l /\ gql_members_distinct l.
Proof. exact gql_members. Qed.
Print Assumptions C95_graphql_partial.

Theorem C95_sqlalchemy_partial : forall camel snake o s output path text,
  SqlalchemySpec.py_names_ok camel snake (get_prefix (Sqlalchemy.so_prefix o)) (Sqlalchemy.so_remove o) (Sqlalchemy.so_suffix o)
    (filter (passes (Sqlalchemy.so_filter o)) (s_tables s)) ->
  (forall t, In t (filter (passes (Sqlalchemy.so_filter o)) (s_tables s)) -> t_cols t <> [] /\ py_apart snake t) ->
  In (path, text) (Sqlalchemy.sa_generate camel snake o s output) ->
  exists f, SqlalchemySpec.read_python text = Some f /\ py_members_distinct f.
Proof. exact py_members. Qed.
Print Assumptions C95_sqlalchemy_partial.

Theorem C95_kotlin_partial : forall camel lower_camel snake path_join o s output wanted,
  KotlinSpec.kt_names_ok camel lower_camel (get_prefix (Jpa.ko_prefix o)) (Jpa.ko_remove o) (Jpa.ko_identity o) (Jpa.ko_relation o) (Jpa.ko_suffix o)
    (filter (passes (Jpa.ko_filter o)) (s_tables s)) ->
  KotlinSpec.package_ok (Jpa.ko_package o) ->
  (forall t, In t (filter (passes (Jpa.ko_filter o)) (s_tables s)) -> KotlinSpec.annotations (get_annotations (Jpa.ko_anno o) (t_group t)) (wanted (t_group t))) ->
  (Jpa.ko_repos o = "" \/ KotlinSpec.package_ok (Jpa.ko_repos o) /\ forall t, In t (filter (passes (Jpa.ko_filter o)) (s_tables s)) -> KotlinSpec.keys t <> []) ->
  (forall t, In t (filter (passes (Jpa.ko_filter o)) (s_tables s)) -> NoDup (column_names t) /\ apart lower_camel (column_names t)) ->
  forall path text, In (path, text) (fst (Jpa.kt_generate camel lower_camel snake path_join o s output)) ->
    exists f, KotlinSpec.read_kotlin text = Some f /\ kt_members_distinct f.
Proof. exact kt_members. Qed.
Print Assumptions C95_kotlin_partial.

(** The naming functions of the library keep names in snake case apart. *)
Theorem C95_snake_partial : forall t, NoDup (column_names t) -> Forall snake_case (column_names t) ->
  apart strcase_camel (column_names t) /\ apart strcase_lower_camel (column_names t) /\ py_apart strcase_snake t.
Proof. exact snake_columns. Qed.
Print Assumptions C95_snake_partial.

(** a schema in snake case with a reference meets the hypotheses of all of them *)
Example C95_case :
  (forall t, In t (s_tables nm_good) -> snake_case (t_name t) /\ NoDup (column_names t) /\ Forall snake_case (column_names t)) /\
  (pb_names_ok strcase_camel strcase_lower_camel (get_prefix (po_prefix nm_pb)) (po_remove nm_pb) (s_tables nm_good) (filter (passes (po_filter nm_pb)) (s_tables nm_good)) /\
   (forall t, In t (s_tables nm_good) -> fits (po_start nm_pb) (length (t_cols t))) /\
   (forall t, In t (filter (passes (po_filter nm_pb)) (s_tables nm_good)) ->
      pb_apart strcase_camel strcase_lower_camel (get_prefix (po_prefix nm_pb)) (po_remove nm_pb) (s_tables nm_good) t)) /\
  (go_names_ok strcase_camel (get_prefix (go_prefix nm_go)) (go_remove nm_go) (go_suffix nm_go) (s_tables nm_good) (filter (passes (go_filter nm_go)) (s_tables nm_good)) /\
   (forall t, In t (filter (passes (go_filter nm_go)) (s_tables nm_good)) ->
      go_apart strcase_camel (get_prefix (go_prefix nm_go)) (go_remove nm_go) (embed_models default_models (go_embed nm_go)) (s_tables nm_good) t)) /\
  (gql_names_ok strcase_camel strcase_lower_camel (fun n => n ++ "s") (get_prefix (mkPM "" [] false)) [] (filter (passes None) (s_tables nm_good)) /\
   NoDup (map (fun t => strcase_lower_camel (type_named strcase_camel (get_prefix (mkPM "" [] false)) [] t) ++ "s") (filter (passes None) (s_tables nm_good)))) /\
  SqlalchemySpec.py_names_ok strcase_camel strcase_snake (get_prefix (Sqlalchemy.so_prefix nm_sa)) (Sqlalchemy.so_remove nm_sa) (Sqlalchemy.so_suffix nm_sa)
    (filter (passes (Sqlalchemy.so_filter nm_sa)) (s_tables nm_good)) /\
  KotlinSpec.kt_names_ok strcase_camel strcase_lower_camel (get_prefix (Jpa.ko_prefix nm_kt)) (Jpa.ko_remove nm_kt) (Jpa.ko_identity nm_kt) (Jpa.ko_relation nm_kt) (Jpa.ko_suffix nm_kt)
    (filter (passes (Jpa.ko_filter nm_kt)) (s_tables nm_good)).
Proof.
  split; [exact good_snake|]. split; [exact good_pb|]. split; [exact good_go|]. split; [exact good_gql|]. split; [exact (proj1 good_py)|exact (proj1 good_kt)].
Qed.

(** C96. False: tables with distinct names can have types of one name; a table [query] clashes with the type Query of the
    GraphQL schema, a table [base] with the base class of the Python file, and for Kotlin a file is written twice. *)
Theorem C96_refuted :
  (exists o s text l, distinct_names s /\ pb_generate strcase_camel strcase_lower_camel o s = Ok text /\ read_proto text = Some l /\ ~ NoDup (pb_messages_named l)) /\
  (exists o s f, distinct_names s /\
     read_go (fst (gorm_generate strcase_camel strcase_snake (fun _ l => l) (fun _ l => l) default_models o s)) = Some f /\ ~ NoDup (map gd_name (gf_decls f))) /\
  (exists s l, distinct_names s /\ length (s_tables s) = 1 /\
     read_graphql (gql_text strcase_camel strcase_lower_camel (fun n => n ++ "s") None [] (mkPM "" [] false) s) = Some l /\ ~ NoDup (gql_types_named l)) /\
  (exists o s text f, distinct_names s /\ length (s_tables s) = 1 /\ Sqlalchemy.sa_generate strcase_camel strcase_snake o s "model.py" = [("model.py", text)] /\
     SqlalchemySpec.read_python text = Some f /\ ~ py_types_distinct f) /\
  (exists o s, distinct_names s /\ ~ NoDup (map fst (fst (Jpa.kt_generate strcase_camel strcase_lower_camel strcase_snake (join "/") o s "out")))).
Proof. exact type_clashes. Qed.
Print Assumptions C96_refuted.

(** The types of the file are distinct exactly if the names of the types are. *)
Theorem C96_protobuf_partial : forall camel lower_camel o s text, one_line (po_package o) -> one_line (po_go_package o) ->
  pb_names_ok camel lower_camel (get_prefix (po_prefix o)) (po_remove o) (s_tables s) (filter (passes (po_filter o)) (s_tables s)) ->
  (forall t, In t (s_tables s) -> fits (po_start o) (length (t_cols t))) ->
  pb_generate camel lower_camel o s = Ok text -> exists l, read_proto text = Some l /\
    (NoDup (pb_messages_named l) <->
     NoDup (map (message_named camel (get_prefix (po_prefix o)) (po_remove o)) (filter (passes (po_filter o)) (s_tables s)))).
Proof. exact pb_types. Qed.
Print Assumptions C96_protobuf_partial.

Theorem C96_gorm_partial : forall camel snake om on m o,
  (forall k, iteration_order (om k)) -> (forall k, iteration_order (on k)) -> forall s, models_ok m ->
  go_names_ok camel (get_prefix (go_prefix o)) (go_remove o) (go_suffix o) (s_tables s) (filter (passes (go_filter o)) (s_tables s)) ->
  one_line (go_package o) ->
  exists f, read_go (fst (gorm_generate camel snake om on m o s)) = Some f /\
    (NoDup (map gd_name (gf_decls f)) <->
     NoDup (map (type_named camel (get_prefix (go_prefix o)) (go_remove o)) (filter (passes (go_filter o)) (s_tables s)))).
Proof. exact go_types_named. Qed.
Print Assumptions C96_gorm_partial.

Theorem C96_graphql_partial : forall camel lower_camel plural f remove pm s,
  gql_names_ok camel lower_camel plural (get_prefix pm) remove (filter (passes f) (s_tables s)) ->
  exists l, read_graphql (gql_text camel lower_camel plural f remove pm s) = Some l /\
    (NoDup (gql_types_named l) <-> NoDup ("Query" :: map (type_named camel (get_prefix pm) remove) (filter (passes f) (s_tables s)))).
Proof. exact gql_types. Qed.
Print Assumptions C96_graphql_partial.

(** In the single Python file they are if in addition no class has a name that is imported or defined for the classes. *)
Theorem C96_sqlalchemy_partial : forall camel snake o s output, SqlalchemySpec.python_path output ->
  SqlalchemySpec.py_names_ok camel snake (get_prefix (Sqlalchemy.so_prefix o)) (Sqlalchemy.so_remove o) (Sqlalchemy.so_suffix o)
    (filter (passes (Sqlalchemy.so_filter o)) (s_tables s)) ->
  NoDup (map (type_named camel (get_prefix (Sqlalchemy.so_prefix o)) (Sqlalchemy.so_remove o)) (filter (passes (Sqlalchemy.so_filter o)) (s_tables s))) ->
  (forall t, In t (filter (passes (Sqlalchemy.so_filter o)) (s_tables s)) ->
     ~ In (type_named camel (get_prefix (Sqlalchemy.so_prefix o)) (Sqlalchemy.so_remove o) t) py_taken) ->
  exists text f, Sqlalchemy.sa_generate camel snake o s output = [(output, text)] /\
    SqlalchemySpec.read_python text = Some f /\ py_types_distinct f.
Proof. exact py_types. Qed.
Print Assumptions C96_sqlalchemy_partial.

(** For Kotlin each file is written once, if paths that differ in the name of the file are different, and the two
    packages have different directories. *)
Theorem C96_kotlin_partial : forall camel lower_camel snake path_join o s output wanted,
  KotlinSpec.kt_names_ok camel lower_camel (get_prefix (Jpa.ko_prefix o)) (Jpa.ko_remove o) (Jpa.ko_identity o) (Jpa.ko_relation o) (Jpa.ko_suffix o)
    (filter (passes (Jpa.ko_filter o)) (s_tables s)) ->
  KotlinSpec.package_ok (Jpa.ko_package o) ->
  (forall t, In t (filter (passes (Jpa.ko_filter o)) (s_tables s)) -> KotlinSpec.annotations (get_annotations (Jpa.ko_anno o) (t_group t)) (wanted (t_group t))) ->
  (Jpa.ko_repos o = "" \/ KotlinSpec.package_ok (Jpa.ko_repos o) /\ forall t, In t (filter (passes (Jpa.ko_filter o)) (s_tables s)) -> KotlinSpec.keys t <> []) ->
  NoDup (map (type_named camel (get_prefix (Jpa.ko_prefix o)) (Jpa.ko_remove o)) (filter (passes (Jpa.ko_filter o)) (s_tables s))) ->
  (forall d a b, word a -> word b -> path_join [d; a ++ ".kt"] = path_join [d; b ++ ".kt"] -> a = b) ->
  (Jpa.ko_repos o <> "" -> forall a b, word a -> word b ->
     path_join [path_join (output :: split_on "." (Jpa.ko_package o)); a ++ ".kt"] <>
     path_join [path_join (output :: split_on "." (Jpa.ko_repos o)); b ++ ".kt"]) ->
  NoDup (map fst (fst (Jpa.kt_generate camel lower_camel snake path_join o s output))).
Proof. exact kt_files. Qed.
Print Assumptions C96_kotlin_partial.

(** With the library, the names of the types are distinct for tables in snake case, without class names, prefixes and
    prefixes to remove. *)
Theorem C96_snake_partial : forall prefix ts, NoDup (map t_name ts) -> Forall snake_case (map t_name ts) ->
  (forall t, In t ts -> prefix (t_group t) = "" /\ t_class t = "") ->
  NoDup (map (type_named strcase_camel prefix []) ts) /\ NoDup (map (message_named strcase_camel prefix []) ts).
Proof. exact snake_tables. Qed.
Print Assumptions C96_snake_partial.

Example C96_case :
  NoDup (map t_name (s_tables nm_good)) /\ Forall snake_case (map t_name (s_tables nm_good)) /\
  (forall t, In t (filter (passes (Sqlalchemy.so_filter nm_sa)) (s_tables nm_good)) ->
     ~ In (type_named strcase_camel (get_prefix (Sqlalchemy.so_prefix nm_sa)) (Sqlalchemy.so_remove nm_sa) t) py_taken) /\
  map (type_named strcase_camel (get_prefix (mkPM "" [] false)) []) (s_tables nm_good) = ["User"; "UserGroup"] /\
  (forall d a b, word a -> word b -> join "/" [d; a ++ ".kt"] = join "/" [d; b ++ ".kt"] -> a = b) /\
  (forall a b, word a -> word b ->
     join "/" [join "/" ("out" :: split_on "." (Jpa.ko_package nm_kt)); a ++ ".kt"] <>
     join "/" [join "/" ("out" :: split_on "." (Jpa.ko_repos nm_kt)); b ++ ".kt"]).
Proof.
  split; [apply distinct_ok; vm_compute; reflexivity|]. split; [repeat (constructor; [reflexivity|]); constructor|].
  split; [exact (proj2 (proj2 good_py))|]. split; [vm_compute; reflexivity|]. split; [exact join_inj|exact join_apart].
Qed.
