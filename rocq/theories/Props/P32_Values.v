(** C107: the types in generated files have room for the values of their columns *)
From Coq Require Import String Ascii List NArith ZArith Bool.
From Verif.Model Require Import GoString Octopus Common Mysql Liquibase.
From Verif.Model Require Gorm Graphql Protobuf Sqlalchemy Jpa.
From Verif.Spec Require Import Text Reading OctopusSpec ValuesSpec ValuesFilesSpec.
From Verif.Spec Require DiffSpec GormSpec KotlinSpec GraphqlSpec ProtobufSpec SqlalchemySpec MysqlGrammar MysqlSpec ServerSpec Database FlywaySpec.
From Verif.Proofs Require Import ValuesFiles ValuesCases.
From Verif.Proofs Require GormText GraphqlProofs ProtobufProofs SqlalchemyMain JpaCases ServerCases LiquibaseWitnesses.
Import ListNotations.
Local Open Scope string_scope.

(** Full statement: in every generated file the type given to a column can hold every value that the
    column can have (Spec/ValuesSpec.v says which these are, from the documented types); a table made
    by the DDL or the change log accepts no other values either. True for Kotlin. For the other
    generators it is false; the partial theorems say exactly for which columns it is true. *)

(** Kotlin: without exception. *)
Theorem C107_kotlin : forall camel lower_camel snake path_join o s output wanted,
  KotlinSpec.kt_names_ok camel lower_camel (get_prefix (Jpa.ko_prefix o)) (Jpa.ko_remove o) (Jpa.ko_identity o) (Jpa.ko_relation o)
    (Jpa.ko_suffix o) (filter (passes (Jpa.ko_filter o)) (s_tables s)) ->
  KotlinSpec.package_ok (Jpa.ko_package o) ->
  (forall t, In t (filter (passes (Jpa.ko_filter o)) (s_tables s)) ->
     KotlinSpec.annotations (get_annotations (Jpa.ko_anno o) (t_group t)) (wanted (t_group t))) ->
  (Jpa.ko_repos o = "" \/ KotlinSpec.package_ok (Jpa.ko_repos o) /\
     forall t, In t (filter (passes (Jpa.ko_filter o)) (s_tables s)) -> KotlinSpec.keys t <> []) ->
  exists entities repos, Jpa.kt_generate camel lower_camel snake path_join o s output = ((entities ++ repos)%list, Jpa.KtDone) /\
    Forall2 (fun t file => exists f, KotlinSpec.read_kotlin (snd file) = Some f /\ kotlin_values lower_camel t (KotlinSpec.ki_decls f))
      (filter (passes (Jpa.ko_filter o)) (s_tables s)) entities.
Proof. exact kotlin_files. Qed.
Print Assumptions C107_kotlin.

Example C107_kotlin_case :
  KotlinSpec.kt_names_ok JpaCases.kt_camel JpaCases.kt_lower_camel (get_prefix (Jpa.ko_prefix JpaCases.kt_plain)) (Jpa.ko_remove JpaCases.kt_plain)
    (Jpa.ko_identity JpaCases.kt_plain) (Jpa.ko_relation JpaCases.kt_plain) (Jpa.ko_suffix JpaCases.kt_plain)
    (filter (passes (Jpa.ko_filter JpaCases.kt_plain)) (s_tables JpaCases.kt_user)) /\
  has_value (JpaCases.kt_col "score" "decimal" 20 5 true false false false None) (VDecimal 99999999999999999999 5) /\
  has_value (JpaCases.kt_col "updated_at" "datetime" 0 0 false false false false None) VNull.
Proof.
  split; [exact JpaCases.kt_user_ok|]. split; [right; split; [discriminate|reflexivity]|]. left. repeat split; reflexivity.
Qed.

(** GORM: unless the column is a BIT with more than eight bits or a nullable ENUM. *)
Theorem C107_gorm_partial : forall camel snake om on,
  (forall k, DiffSpec.iteration_order (om k)) -> (forall k, DiffSpec.iteration_order (on k)) -> forall m o s, GormSpec.models_ok m ->
  GormSpec.go_names_ok camel (get_prefix (Gorm.go_prefix o)) (Gorm.go_remove o) (Gorm.go_suffix o) (s_tables s)
    (filter (passes (Gorm.go_filter o)) (s_tables s)) ->
  one_line (Gorm.go_package o) ->
  exists f, GormSpec.read_go (fst (Gorm.gorm_generate camel snake om on m o s)) = Some f /\
    Forall2 (gorm_values camel (Gorm.embed_models m (Gorm.go_embed o)))
      (filter (passes (Gorm.go_filter o)) (s_tables s)) (GormSpec.gf_decls f).
Proof. exact gorm_files. Qed.
Print Assumptions C107_gorm_partial.

Example C107_gorm_case :
  GormSpec.go_names_ok vx_same (get_prefix (mkPM "" [] false)) [] "_uq" (s_tables vx_go) (filter (passes None) (s_tables vx_go)) /\
  go_room vx_id /\ ~ go_room vx_kind /\ ~ go_room vx_flags /\ has_value vx_id (VInt 9223372036854775807) /\ ~ has_value vx_id VNull.
Proof.
  split; [exact vx_go_ok|]. split; [split; discriminate|]. split; [intros [_ H]; destruct (H eq_refl) as [E|E]; discriminate E|].
  split; [intros [H _]; exact (H eq_refl eq_refl)|]. split; [right; split; [discriminate|reflexivity]|]. intros [[_ [E _]]|[]]. discriminate E.
Qed.

Theorem C107_gorm_refuted : exists s f d,
  GormSpec.go_names_ok vx_same (get_prefix (mkPM "" [] false)) [] "_uq" (s_tables s) (filter (passes None) (s_tables s)) /\
  GormSpec.read_go (fst (Gorm.gorm_generate vx_same vx_same (fun _ l => l) (fun _ l => l) Gorm.default_models (GormText.user_opt "") s)) = Some f /\
  GormSpec.gf_decls f = [d] /\ GormSpec.gd_embedded d = [] /\
  (exists t c ty tags v, In t (s_tables s) /\ In c (t_cols t) /\ c_name c = "kind" /\ In ("kind", ty, tags) (GormSpec.gd_fields d) /\
     v = VNull /\ has_value c v /\ ~ go_holds ty v) /\
  (exists t c ty tags v, In t (s_tables s) /\ In c (t_cols t) /\ c_name c = "flags" /\ In ("flags", ty, tags) (GormSpec.gd_fields d) /\
     v = VBits 256 /\ has_value c v /\ ~ go_holds ty v).
Proof. exact gorm_no_room. Qed.
Print Assumptions C107_gorm_refuted.

(** GraphQL: unless the column, not being the only key, is an INT64 or a DECIMAL that a double cannot hold. *)
Theorem C107_graphql_partial : forall to_camel to_lower_camel plural f remove pm s,
  GraphqlSpec.gql_names_ok to_camel to_lower_camel plural (get_prefix pm) remove (filter (passes f) (s_tables s)) ->
  exists query types,
    GraphqlSpec.read_graphql (Graphql.gql_text to_camel to_lower_camel plural f remove pm s) =
      Some (GraphqlSpec.GSchema [("query", GraphqlSpec.GName "Query")] :: GraphqlSpec.GType "Query" query :: types) /\
    Forall2 (graphql_values to_lower_camel) (filter (passes f) (s_tables s)) types.
Proof. exact graphql_files. Qed.
Print Assumptions C107_graphql_partial.

Example C107_graphql_case :
  GraphqlSpec.gql_names_ok vx_same vx_same (fun x => x ++ "s") (get_prefix (mkPM "" [] false)) [] (filter (passes None) (s_tables vx_gql)) /\
  Graphql.gql_text vx_same vx_same (fun x => x ++ "s") None [] (mkPM "" [] false) vx_gql =
"schema {
    query: Query
}

type Query {
  items: [item]
}

type item {
  id: ID!
  big: Int!
  price: Float!
}
".
Proof. split; [exact vx_gql_ok|vm_compute; reflexivity]. Qed.

Theorem C107_graphql_refuted : exists s query n fs,
  GraphqlSpec.gql_names_ok vx_same vx_same (fun x => x ++ "s") (get_prefix (mkPM "" [] false)) [] (filter (passes None) (s_tables s)) /\
  GraphqlSpec.read_graphql (Graphql.gql_text vx_same vx_same (fun x => x ++ "s") None [] (mkPM "" [] false) s) =
    Some [GraphqlSpec.GSchema [("query", GraphqlSpec.GName "Query")]; GraphqlSpec.GType "Query" query; GraphqlSpec.GType n fs] /\
  (exists t c ty v, In t (s_tables s) /\ In c (t_cols t) /\ c_name c = "big" /\ In ("big", ty) fs /\
     v = VInt 2147483648 /\ has_value c v /\ ~ gql_holds ty v) /\
  (exists t c ty v, In t (s_tables s) /\ In c (t_cols t) /\ c_name c = "price" /\ In ("price", ty) fs /\
     v = VDecimal 1 2 /\ has_value c v /\ ~ gql_holds ty v).
Proof. exact graphql_no_room. Qed.
Print Assumptions C107_graphql_refuted.

(** Protocol buffers: for texts, numbers, truth values and time stamps, unless the column is a DECIMAL that a double cannot hold. *)
Theorem C107_proto_partial : forall camel lc o s text,
  one_line (Protobuf.po_package o) -> one_line (Protobuf.po_go_package o) ->
  ProtobufSpec.pb_names_ok camel lc (get_prefix (Protobuf.po_prefix o)) (Protobuf.po_remove o) (s_tables s)
    (filter (passes (Protobuf.po_filter o)) (s_tables s)) ->
  (forall t, In t (s_tables s) -> ProtobufSpec.fits (Protobuf.po_start o) (length (t_cols t))) ->
  (forall t c, In t (s_tables s) -> In c (t_cols t) -> c_type c = "enum" -> c_values c <> []) ->
  Protobuf.pb_generate camel lc o s = Ok text ->
  exists l first messages, ProtobufSpec.read_proto text = Some l /\ l = (first ++ messages)%list /\
    Forall2 (proto_values lc) (filter (passes (Protobuf.po_filter o)) (s_tables s)) messages.
Proof. exact proto_files. Qed.
Print Assumptions C107_proto_partial.

Example C107_proto_case :
  ProtobufSpec.pb_names_ok vx_same vx_same (get_prefix (mkPM "" [] false)) [] (s_tables vx_pb) (filter (passes None) (s_tables vx_pb)) /\
  (exists text, Protobuf.pb_generate vx_same vx_same (ProtobufProofs.pb_opt (-1) false None) vx_pb = Ok text) /\
  proto_room vx_id /\ ~ proto_room vx_price /\ ~ proto_room vx_day.
Proof.
  split; [exact vx_pb_ok|]. split; [eexists; vm_compute; reflexivity|]. split; [split; [vm_compute; tauto|discriminate]|]. split.
  - intros [_ H]. destruct (H eq_refl) as [E|[E _]]; discriminate E.
  - intros [H _]. vm_compute in H. intuition discriminate.
Qed.

Theorem C107_proto_refuted : exists s text l n fs,
  ProtobufSpec.pb_names_ok vx_same vx_same (get_prefix (mkPM "" [] false)) [] (s_tables s) (filter (passes None) (s_tables s)) /\
  Protobuf.pb_generate vx_same vx_same (ProtobufProofs.pb_opt (-1) false None) s = Ok text /\
  ProtobufSpec.read_proto text = Some l /\ In (ProtobufSpec.PMessage n fs) l /\
  (exists t c x v, In t (s_tables s) /\ In c (t_cols t) /\ c_name c = "price" /\ In x fs /\ ProtobufSpec.rf_name x = "price" /\
     v = VDecimal 1 2 /\ has_value c v /\ ~ proto_holds (ProtobufSpec.rf_type x) v) /\
  (exists t c x v, In t (s_tables s) /\ In c (t_cols t) /\ c_name c = "day" /\ In x fs /\ ProtobufSpec.rf_name x = "day" /\
     v = VDate 2020 1 31 /\ has_value c v /\ ~ proto_holds (ProtobufSpec.rf_type x) v).
Proof. exact proto_no_room. Qed.
Print Assumptions C107_proto_refuted.

(** SQLAlchemy: unless the column is a DOUBLE and FLOAT is narrow on the server ([wide] = false), or a BLOB longer than the BLOB of the server. *)
Theorem C107_sqlalchemy_partial : forall wide blob camel snake o s output, SqlalchemySpec.python_path output ->
  SqlalchemySpec.py_names_ok camel snake (get_prefix (Sqlalchemy.so_prefix o)) (Sqlalchemy.so_remove o) (Sqlalchemy.so_suffix o)
    (filter (passes (Sqlalchemy.so_filter o)) (s_tables s)) ->
  exists text f, Sqlalchemy.sa_generate camel snake o s output = [(output, text)] /\ SqlalchemySpec.read_python text = Some f /\
    Forall2 (sa_values wide blob) (filter (passes (Sqlalchemy.so_filter o)) (s_tables s)) (filter SqlalchemySpec.is_model f).
Proof. exact sa_single. Qed.
Print Assumptions C107_sqlalchemy_partial.

Example C107_sqlalchemy_case :
  SqlalchemySpec.py_names_ok vx_same vx_same (get_prefix (mkPM "" [] false)) [] "_uq" (filter (passes None) (s_tables vx_sa)) /\
  SqlalchemySpec.python_path "m.py" /\
  sa_room true (top 24) vx_rate /\ ~ sa_room false (top 24) vx_rate /\ sa_room true (top 24) vx_data /\ ~ sa_room true (top 16) vx_data.
Proof.
  split; [exact vx_sa_ok|]. split; [exists "m", "py"; split; reflexivity|]. split; [split; [reflexivity|discriminate]|].
  split; [intros [H _]; discriminate (H eq_refl)|]. split; [split; [reflexivity|vm_compute; discriminate]|].
  intros [_ H]. apply H. reflexivity.
Qed.

Theorem C107_sqlalchemy_refuted : exists s text f n base body,
  SqlalchemySpec.py_names_ok vx_same vx_same (get_prefix (mkPM "" [] false)) [] "_uq" (filter (passes None) (s_tables s)) /\
  Sqlalchemy.sa_generate vx_same vx_same (SqlalchemyMain.sa_plain false) s "m.py" = [("m.py", text)] /\
  SqlalchemySpec.read_python text = Some f /\ In (SqlalchemySpec.PClass n base body) f /\
  (exists t c ty kws v, In t (s_tables s) /\ In c (t_cols t) /\ c_name c = "rate" /\
     In (SqlalchemySpec.MAssign "rate" (SqlalchemySpec.ECall "Column" (("", ty) :: kws))) body /\
     v = VFloat 33554433 0 /\ has_value c v /\ ~ sa_column_holds false (top 16) ty kws v) /\
  (exists t c ty kws v, In t (s_tables s) /\ In c (t_cols t) /\ c_name c = "data" /\
     In (SqlalchemySpec.MAssign "data" (SqlalchemySpec.ECall "Column" (("", ty) :: kws))) body /\
     v = VBytes 65536 /\ has_value c v /\ ~ sa_column_holds false (top 16) ty kws v).
Proof. exact sa_no_room. Qed.
Print Assumptions C107_sqlalchemy_refuted.

(** MySQL DDL: unless the column is a BINARY of more than one byte; and no other values, unless the column is a FLOAT with a size but no scale (or the other way round). *)
Theorem C107_mysql_partial : forall reserved f suffix s d,
  Forall (MysqlSpec.plain_table reserved suffix) (ServerSpec.selection f (s_tables s)) ->
  NoDup (map t_name (ServerSpec.selection f (s_tables s))) ->
  (forall t, In t (ServerSpec.selection f (s_tables s)) -> ~ In (t_name t) (map ServerSpec.q_table d)) ->
  Forall (ServerSpec.acceptable suffix) (ServerSpec.selection f (s_tables s)) ->
  exists stmts bs, MysqlGrammar.read_sql reserved (my_export f suffix s) = Some stmts /\
    ServerSpec.run_stmts d (map FlywaySpec.MCreate stmts) = Some (d ++ bs)%list /\
    Forall2 mysql_values (ServerSpec.selection f (s_tables s)) bs.
Proof. exact mysql_servers. Qed.
Print Assumptions C107_mysql_partial.

Example C107_mysql_case :
  ServerSpec.proper ServerCases.sx_reserved "_uq" (s_tables ServerCases.sx_from) /\
  my_room vx_flags /\ ~ my_room vx_hash.
Proof.
  split; [exact ServerCases.sx_from_proper|]. split; [discriminate|]. intros H. exact (H eq_refl eq_refl).
Qed.

Theorem C107_mysql_refuted : exists s stmts b t c q v,
  ServerSpec.proper ServerCases.sx_reserved "_uq" (s_tables s) /\
  MysqlGrammar.read_sql ServerCases.sx_reserved (my_export None "_uq" s) = Some stmts /\
  ServerSpec.run_stmts [] (map FlywaySpec.MCreate stmts) = Some [b] /\
  In t (s_tables s) /\ In c (t_cols t) /\ c_name c = "hash" /\ In q (ServerSpec.q_cols b) /\ ServerSpec.q_name q = "hash" /\
  v = VBytes 16 /\ has_value c v /\ ~ my_column_holds q v.
Proof. exact mysql_no_room. Qed.
Print Assumptions C107_mysql_refuted.

(** Liquibase change logs, for columns whose type has a name there and whose sizes are where they belong: unless the column is a BLOB24 or BLOB32 and BLOB is the BLOB of MySQL; and no other values, unless the type is one of several texts or blobs that share a name. *)
Theorem C107_liquibase_partial : forall fk sv blob o sc css, In blob ["blob"; "longblob"] ->
  lq_generate fk o sc = Some css ->
  NoDup (map t_name (Database.select (lo_filter o) (s_tables sc))) ->
  (forall t, In t (Database.select (lo_filter o) (s_tables sc)) -> Database.well_formed t) ->
  (forall t c, In t (Database.select (lo_filter o) (s_tables sc)) -> In c (t_cols t) -> In (c_type c) octopus_types) ->
  exists bs, Database.run_log sv css [] = Some bs /\
    Forall2 (lq_values blob) (Database.select (lo_filter o) (s_tables sc)) bs.
Proof. exact lq_databases. Qed.
Print Assumptions C107_liquibase_partial.

Example C107_liquibase_case :
  NoDup (map t_name (s_tables vx_lq)) /\ (forall t, In t (s_tables vx_lq) -> Database.well_formed t) /\
  (forall t c, In t (s_tables vx_lq) -> In c (t_cols t) -> In (c_type c) octopus_types /\ sizes_ok c) /\
  match lq_generate (fun _ => false) LiquibaseWitnesses.lx_o vx_lq with
  | Some css => option_map (map (fun b => map (fun d => (Database.d_name d, Database.d_type d)) (Database.b_cols b)))
                  (Database.run_log LiquibaseWitnesses.lx_sv css [])
  | None => None
  end = Some [[("id", "bigint"); ("small", "mediumint"); ("data", "blob")]].
Proof. exact (conj (proj1 vx_lq_ok) (conj (proj1 (proj2 vx_lq_ok)) (conj (proj2 (proj2 vx_lq_ok)) eq_refl))). Qed.

Theorem C107_liquibase_refuted : exists s css b t c d v,
  NoDup (map t_name (s_tables s)) /\ (forall t, In t (s_tables s) -> Database.well_formed t) /\
  (forall t c, In t (s_tables s) -> In c (t_cols t) -> In (c_type c) octopus_types /\ sizes_ok c) /\
  lq_generate (fun _ => false) LiquibaseWitnesses.lx_o s = Some css /\ Database.run_log LiquibaseWitnesses.lx_sv css [] = Some [b] /\
  In t (s_tables s) /\ In c (t_cols t) /\ c_name c = "data" /\ In d (Database.b_cols b) /\ Database.d_name d = "data" /\
  v = VBytes 65536 /\ has_value c v /\ ~ lq_column_holds "blob" d v.
Proof. exact lq_no_room. Qed.
Print Assumptions C107_liquibase_refuted.
