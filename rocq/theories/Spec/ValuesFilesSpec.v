(** Generated declarations and the values of the columns: which columns have a type with room for all
    their values *)
From Coq Require Import String Ascii List NArith ZArith Bool.
From Verif.Model Require Import GoString Octopus Mysql Liquibase.
From Verif.Spec Require Import OctopusSpec ValuesSpec.
From Verif.Spec Require GormSpec KotlinSpec GraphqlSpec ProtobufSpec SqlalchemySpec MysqlGrammar MysqlSpec ServerSpec Database.
Import ListNotations.
Local Open Scope string_scope.

(** columns covered by an embedded struct have no field of their own *)
Definition gorm_values (camel : string -> string) (ms : list (string * list string)) (t : table) (d : GormSpec.go_decl) : Prop :=
  GormSpec.gd_table d = t_name t /\
  forall c, In c (t_cols t) -> ~ GormSpec.covered ms (GormSpec.gd_embedded d) (c_name c) ->
  exists n ty tags, In (n, ty, tags) (GormSpec.gd_fields d) /\ GormSpec.field_named camel (c_name c) n /\
    (holds_all (has_value c) (go_holds ty) <-> go_room c).

(** the parameters of the class *)
Definition kotlin_values (property : string -> string) (t : table) (ds : list KotlinSpec.decl) : Prop :=
  exists annos name params super more, ds = KotlinSpec.DClass annos name params super :: more /\
    Forall2 (fun c p => KotlinSpec.kp_name p = property (c_name c) /\
               holds_all (has_value c) (kt_holds (KotlinSpec.kp_type p))) (t_cols t) params.

Definition graphql_values (name : string -> string) (t : table) (d : GraphqlSpec.gdef) : Prop :=
  exists n fs, d = GraphqlSpec.GType n fs /\
    Forall2 (fun c x => fst x = name (c_name c) /\
               (holds_all (has_value c) (gql_holds (snd x)) <-> gql_room t c)) (t_cols t) fs.

(** the fields of the columns come first; null is the absence of the field *)
Definition proto_values (name : string -> string) (t : table) (m : ProtobufSpec.pitem) : Prop :=
  exists n cs rs, m = ProtobufSpec.PMessage n (cs ++ rs) /\
    Forall2 (fun c x => ProtobufSpec.rf_name x = name (c_name c) /\
               ((forall v, has_value c v -> v <> VNull -> proto_holds (ProtobufSpec.rf_type x) v) <-> proto_room c)) (t_cols t) cs.

(** the attributes of the class that are columns *)
Definition sa_values (wide : bool) (blob : N) (t : table) (b : SqlalchemySpec.stmt) : Prop :=
  exists n base rest columns, b = SqlalchemySpec.PClass n base (rest ++ columns) /\
    In (SqlalchemySpec.MAssign "__tablename__" (SqlalchemySpec.EStr (t_name t))) rest /\
    Forall2 (fun c m => exists x named ty kws,
               m = SqlalchemySpec.MAssign x (SqlalchemySpec.ECall "Column" (named ++ [("", ty)] ++ kws)) /\
               (named = [("", SqlalchemySpec.EStr (c_name c))] \/ (named = [] /\ x = c_name c)) /\
               ((c_size c = 0 \/ c_scale c <= c_size c)%N ->
                (holds_all (has_value c) (sa_column_holds wide blob ty kws) <-> sa_room wide blob c))) (t_cols t) columns.

(** the table on the server accepts these values, and no others *)
Definition mysql_values (t : table) (b : ServerSpec.sql_table) : Prop :=
  ServerSpec.q_table b = t_name t /\
  Forall2 (fun c q => ServerSpec.q_name q = c_name c /\
             (holds_all (has_value c) (my_column_holds q) <-> my_room c) /\
             ((c_type c = "float" -> (c_size c = 0 <-> c_scale c = 0)%N) -> holds_all (my_column_holds q) (has_value c)))
          (t_cols t) (ServerSpec.q_cols b).

Definition lq_column_holds (blob : string) (d : Database.dbcol) (v : value) : Prop :=
  (v = VNull /\ Database.d_notnull d = false) \/
  exists ft, lq_means blob (Database.d_type d) ft /\ my_holds ft v.
Definition lq_values (blob : string) (t : table) (b : Database.dbtable) : Prop :=
  Database.b_name b = t_name t /\
  Forall2 (fun c d => Database.d_name d = c_name c /\
             (~ In (c_type c) lq_unnamed -> sizes_ok c ->
              (exists ft, lq_means blob (Database.d_type d) ft) /\
              (holds_all (has_value c) (lq_column_holds blob d) <-> lq_room blob c) /\
              (~ In (c_type c) merged -> holds_all (lq_column_holds blob d) (has_value c))))
          (t_cols t) (Database.b_cols b).
