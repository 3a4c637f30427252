(** The values of columns and the types in generated files *)
From Coq Require Import String Ascii List NArith ZArith Bool Lia.
From Verif.Model Require Import GoString Octopus Common Mysql Liquibase.
From Verif.Model Require Gorm Graphql Protobuf Sqlalchemy Jpa.
From Verif.Spec Require Import Text Reading OctopusSpec ValuesSpec ValuesFilesSpec.
From Verif.Spec Require DiffSpec GormSpec KotlinSpec GraphqlSpec ProtobufSpec SqlalchemySpec MysqlGrammar MysqlSpec ServerSpec Database FlywaySpec FlywaySpec.
From Verif.Proofs Require Import ValuesProofs ValuesSql.
From Verif.Proofs Require GormText GraphqlProofs ProtobufProofs SqlalchemyMain JpaMain ServerCases SchemaMigration LiquibaseFacts.
Import ListNotations.
Local Open Scope string_scope.

Lemma Forall2_impl_in : forall A B (P Q : A -> B -> Prop) l l', (forall x y, In x l -> P x y -> Q x y) ->
  Forall2 P l l' -> Forall2 Q l l'.
Proof.
  intros A B P Q l l' H F. induction F as [|x y l l' R F IH]; constructor.
  - apply H; [left; reflexivity|exact R].
  - apply IH. intros a b I. apply H. right. exact I.
Qed.
Lemma Forall2_in_left : forall A B (P : A -> B -> Prop) l l' x, Forall2 P l l' -> In x l -> exists y, In y l' /\ P x y.
Proof.
  intros A B P l l' x F. induction F as [|a b l l' R F IH]; intros I; [destruct I|].
  destruct I as [->|I]; [exists b; split; [left; reflexivity|exact R]|].
  destruct (IH I) as [y [J Y]]. exists y. split; [right; exact J|exact Y].
Qed.
Lemma kept_in : forall A (P : A -> Prop) l l' x, GormSpec.kept P l l' -> In x l -> P x -> In x l'.
Proof.
  intros A P l l' x K. induction K as [|y l l' Y K IH|y l l' Y K IH]; intros I X; [destruct I| |].
  - destruct I as [->|I]; [left; reflexivity|right; auto].
  - destruct I as [->|I]; [destruct (Y X)|auto].
Qed.

Lemma gorm_files : forall camel snake om on,
  (forall k, DiffSpec.iteration_order (om k)) -> (forall k, DiffSpec.iteration_order (on k)) -> forall m o s, GormSpec.models_ok m ->
  GormSpec.go_names_ok camel (get_prefix (Gorm.go_prefix o)) (Gorm.go_remove o) (Gorm.go_suffix o) (s_tables s)
    (filter (passes (Gorm.go_filter o)) (s_tables s)) ->
  one_line (Gorm.go_package o) ->
  exists f, GormSpec.read_go (fst (Gorm.gorm_generate camel snake om on m o s)) = Some f /\
    Forall2 (gorm_values camel (Gorm.embed_models m (Gorm.go_embed o)))
      (filter (passes (Gorm.go_filter o)) (s_tables s)) (GormSpec.gf_decls f).
Proof.
  intros camel snake om on H1 H2 m o s M N P.
  destruct (GormText.file_described camel snake om on H1 H2 m o s M N P) as [f [R [_ F]]]. exists f. split; [exact R|].
  eapply Forall2_impl_in; [|exact F]. intros t d It [_ [T [_ [cs [fs [rs [assocs [E [K [G _]]]]]]]]]].
  split; [exact T|]. intros c I C. destruct (Forall2_in_left _ _ _ _ _ _ G (kept_in _ _ _ _ _ K I C)) as [[[n ty] tags] [J [Hn [Ht _]]]].
  exists n, ty, tags. split; [rewrite E; apply in_or_app; left; exact J|]. split; [exact Hn|]. apply go_fits; [|exact Ht].
  destruct N as [_ [_ [_ N]]]. destruct (N t It) as [_ [N' _]]. exact (proj2 (N' c I)).
Qed.

Lemma kotlin_files : forall camel lower_camel snake path_join o s output wanted,
  KotlinSpec.kt_names_ok camel lower_camel (get_prefix (Jpa.ko_prefix o)) (Jpa.ko_remove o) (Jpa.ko_identity o) (Jpa.ko_relation o)
    (Jpa.ko_suffix o) (filter (passes (Jpa.ko_filter o)) (s_tables s)) ->
  KotlinSpec.package_ok (Jpa.ko_package o) ->
  (forall t, In t (filter (passes (Jpa.ko_filter o)) (s_tables s)) ->
     KotlinSpec.annotations (get_annotations (Jpa.ko_anno o) (t_group t)) (wanted (t_group t))) ->
  (Jpa.ko_repos o = "" \/ KotlinSpec.package_ok (Jpa.ko_repos o) /\
     forall t, In t (filter (passes (Jpa.ko_filter o)) (s_tables s)) -> KotlinSpec.keys t <> []) ->
  exists entities repos, Jpa.kt_generate camel lower_camel snake path_join o s output = ((entities ++ repos)%list, Jpa.KtDone) /\
    Forall2 (fun t file => exists f, KotlinSpec.read_kotlin (snd file) = Some f /\ kotlin_values lower_camel t (KotlinSpec.ki_decls f))
      (filter (passes (Jpa.ko_filter o)) (s_tables s)) entities.
Proof.
  intros camel lower_camel snake path_join o s output wanted N P A R.
  destruct (JpaMain.files_described camel lower_camel snake path_join o s output wanted N P A R) as [es [rs [E [F _]]]].
  exists es, rs. split; [exact E|]. eapply Forall2_impl_in; [|exact F]. intros t file It [_ [f [Rf [_ D]]]]. exists f. split; [exact Rf|].
  destruct D as [ta [ids [params [super [more [D [_ [_ [Ps _]]]]]]]]]. rewrite D. do 5 eexists. split; [reflexivity|].
  eapply Forall2_impl_in; [|exact Ps]. intros c p Ic [Hn [Ht _]]. split; [exact Hn|]. apply kt_fits; [|exact Ht].
  destruct N as [_ [_ N]]. destruct (N t It) as [_ [_ N']]. apply (N' c Ic).
Qed.

Lemma graphql_files : forall to_camel to_lower_camel plural f remove pm s,
  GraphqlSpec.gql_names_ok to_camel to_lower_camel plural (get_prefix pm) remove (filter (passes f) (s_tables s)) ->
  exists query types,
    GraphqlSpec.read_graphql (Graphql.gql_text to_camel to_lower_camel plural f remove pm s) =
      Some (GraphqlSpec.GSchema [("query", GraphqlSpec.GName "Query")] :: GraphqlSpec.GType "Query" query :: types) /\
    Forall2 (graphql_values to_lower_camel) (filter (passes f) (s_tables s)) types.
Proof.
  intros tc tl pl f remove pm s N. destruct (GraphqlProofs.graphql_reads tc tl pl f remove pm s N) as [q [ts [R [F _]]]].
  exists q, ts. split; [exact R|]. eapply Forall2_impl_in; [|exact F]. intros t d It D. destruct d as [x|n fs]; [destruct D|].
  destruct D as [_ D]. exists n, fs. split; [reflexivity|]. eapply Forall2_impl_in; [|exact D]. intros c x Ic G.
  split; [exact (proj1 G)|]. eapply gql_fits; [|exact Ic|exact G]. destruct (N t It) as [_ [_ N']]. apply (N' c Ic).
Qed.

Lemma proto_files : forall camel lc o s text,
  one_line (Protobuf.po_package o) -> one_line (Protobuf.po_go_package o) ->
  ProtobufSpec.pb_names_ok camel lc (get_prefix (Protobuf.po_prefix o)) (Protobuf.po_remove o) (s_tables s)
    (filter (passes (Protobuf.po_filter o)) (s_tables s)) ->
  (forall t, In t (s_tables s) -> ProtobufSpec.fits (Protobuf.po_start o) (length (t_cols t))) ->
  (forall t c, In t (s_tables s) -> In c (t_cols t) -> c_type c = "enum" -> c_values c <> []) ->
  Protobuf.pb_generate camel lc o s = Ok text ->
  exists l first messages, ProtobufSpec.read_proto text = Some l /\ l = (first ++ messages)%list /\
    Forall2 (proto_values lc) (filter (passes (Protobuf.po_filter o)) (s_tables s)) messages.
Proof.
  intros camel lc o s text P G N T V E. destruct (ProtobufProofs.generate_reads camel lc o s text P G N T E) as [l [R D]].
  destruct D as [imports [messages [L [_ F]]]]. exists l.
  eexists. exists messages. split; [exact R|]. split; [rewrite L; rewrite ?app_comm_cons, ?app_assoc; reflexivity|].
  eapply Forall2_impl_in; [|exact F]. intros t m It [cs [rs [Em [C _]]]]. do 3 eexists. split; [exact Em|].
  eapply Forall2_impl_in; [|exact C]. intros c x Ic X. split; [exact (proj1 X)|]. eapply proto_fits; [|intros ty; eapply V; [|exact Ic|exact ty]|exact X].
  - destruct (N t It) as [_ [N' _]]. apply (N' c Ic).
  - apply filter_In in It. apply It.
Qed.

Lemma sa_type_known : forall c, SqlalchemySpec.has_sa_type c -> In (c_type c) octopus_types.
Proof.
  intros c [k [[ts [I J]]|[-> _]]]; [|unfold octopus_types; simpl; tauto].
  unfold SqlalchemySpec.sa_types in I. cbn [In] in I.
  repeat match goal with H : _ \/ _ |- _ => destruct H as [H|H] end; try contradiction; injection I as <- <-;
    cbn [In] in J; repeat match goal with H : _ \/ _ |- _ => destruct H as [H|H] end; try contradiction; rewrite <- J; simpl; tauto.
Qed.
Lemma sa_class : forall camel snake prefix remove suffix utc wide blob ts sel f, incl sel ts ->
  SqlalchemySpec.py_names_ok camel snake prefix remove suffix ts ->
  SqlalchemySpec.file_described camel snake prefix remove suffix utc sel f ->
  Forall2 (sa_values wide blob) sel (filter SqlalchemySpec.is_model f).
Proof.
  intros camel snake prefix remove suffix utc wide blob ts sel f S [_ N] F.
  eapply Forall2_impl_in; [|exact F]. intros t b It [unique [columns [E [_ C]]]].
  exists (GraphqlSpec.type_named camel prefix remove t), "Base",
    (SqlalchemySpec.MAssign "__tablename__" (SqlalchemySpec.EStr (t_name t)) :: unique)%list, columns.
  split; [rewrite E; reflexivity|]. split; [left; reflexivity|].
  eapply Forall2_impl_in; [|exact C]. intros c m Ic [x [named [ty [kws [Em [_ [Hn [Ht [K _]]]]]]]]].
  exists x, named, ty, kws. split; [exact Em|]. split; [exact Hn|]. intros Z. eapply sa_fits; [|exact Ht|exact K|exact Z].
  apply sa_type_known. destruct (N t (S t It)) as [_ [_ N']]. apply (N' c Ic).
Qed.
Lemma sa_single : forall wide blob camel snake o s output, SqlalchemySpec.python_path output ->
  SqlalchemySpec.py_names_ok camel snake (get_prefix (Sqlalchemy.so_prefix o)) (Sqlalchemy.so_remove o) (Sqlalchemy.so_suffix o)
    (filter (passes (Sqlalchemy.so_filter o)) (s_tables s)) ->
  exists text f, Sqlalchemy.sa_generate camel snake o s output = [(output, text)] /\ SqlalchemySpec.read_python text = Some f /\
    Forall2 (sa_values wide blob) (filter (passes (Sqlalchemy.so_filter o)) (s_tables s)) (filter SqlalchemySpec.is_model f).
Proof.
  intros wide blob camel snake o s output P N. destruct (SqlalchemyMain.single_main camel snake o s output P N) as [text [f [E [R [_ D]]]]].
  exists text, f. split; [exact E|]. split; [exact R|]. eapply sa_class; [|exact N|exact D]. intros x; exact (fun H => H).
Qed.

Lemma mysql_column : forall c q, ServerSpec.described_column c q ->
  ServerSpec.q_name q = c_name c /\ (holds_all (has_value c) (my_column_holds q) <-> my_room c) /\
  ((c_type c = "float" -> (c_size c = 0 <-> c_scale c = 0)%N) -> holds_all (my_column_holds q) (has_value c)).
Proof.
  intros c q [cd [[_ [T _]] ->]]. split; [reflexivity|]. split.
  - rewrite <- (my_fits c _ T). unfold holds_all, has_value, my_column_holds. cbn [ServerSpec.q_type ServerSpec.q_notnull].
    split; intros H v V.
    + destruct (H v (or_intror V)) as [[-> _]|X]; [destruct (type_values_not_null _ V)|exact X].
    + destruct V as [[-> [A B]]|V]; [left; rewrite A, B; split; reflexivity|right; apply H; exact V].
  - intros Z v. unfold has_value, my_column_holds. cbn [ServerSpec.q_type ServerSpec.q_notnull]. intros [[-> A]|V].
    + left. apply orb_false_iff in A. split; [reflexivity|exact A].
    + right. eapply my_only; [exact T|exact Z|exact V].
Qed.
Lemma mysql_servers : forall reserved f suffix s d,
  Forall (MysqlSpec.plain_table reserved suffix) (ServerSpec.selection f (s_tables s)) ->
  NoDup (map t_name (ServerSpec.selection f (s_tables s))) ->
  (forall t, In t (ServerSpec.selection f (s_tables s)) -> ~ In (t_name t) (map ServerSpec.q_table d)) ->
  Forall (ServerSpec.acceptable suffix) (ServerSpec.selection f (s_tables s)) ->
  exists stmts bs, MysqlGrammar.read_sql reserved (my_export f suffix s) = Some stmts /\
    ServerSpec.run_stmts d (map FlywaySpec.MCreate stmts) = Some (d ++ bs)%list /\
    Forall2 mysql_values (ServerSpec.selection f (s_tables s)) bs.
Proof.
  intros reserved f suffix s d A B C D. destruct (ServerCases.ddl_creates reserved f suffix s d A B C D) as [stmts [bs [R [X F]]]].
  exists stmts, bs. split; [exact R|]. split; [exact X|]. eapply Forall2_impl_in; [|exact F]. intros t b It [Hn [Cs _]].
  split; [exact Hn|]. eapply Forall2_impl_in; [|exact Cs]. intros c q _. apply mysql_column.
Qed.

Lemma lq_column : forall fk comments blob c d, In blob ["blob"; "longblob"] -> In (c_type c) octopus_types ->
  (c_pk c = true -> c_notnull c = true) -> Database.is_col fk comments c d ->
  Database.d_name d = c_name c /\
  (~ In (c_type c) lq_unnamed -> sizes_ok c ->
   (exists ft, lq_means blob (Database.d_type d) ft) /\
   (holds_all (has_value c) (lq_column_holds blob d) <-> lq_room blob c) /\
   (~ In (c_type c) merged -> holds_all (lq_column_holds blob d) (has_value c))).
Proof.
  intros fk comments blob c d B T K [Hn [Ht [Hnn _]]]. split; [exact Hn|]. intros U Z.
  destruct (lq_fits blob c B T U Z) as [ft [M [F O]]]. rewrite <- Ht in M.
  assert (One : forall ft', lq_means blob (Database.d_type d) ft' -> ft' = ft).
  { intros ft' M'. unfold lq_means in M, M'. rewrite M in M'. injection M' as <-. reflexivity. }
  split; [exists ft; exact M|]. split.
  - rewrite <- F. unfold holds_all, has_value, lq_column_holds. split; intros H v V.
    + destruct (H v (or_intror V)) as [[-> _]|[ft' [M' X]]]; [destruct (type_values_not_null _ V)|].
      rewrite (One _ M') in X. exact X.
    + destruct V as [[-> [A P]]|V]; [left; rewrite Hnn, A; split; reflexivity|right; exists ft; split; [exact M|apply H; exact V]].
  - intros N v [[-> A]|[ft' [M' X]]].
    + left. rewrite Hnn in A. split; [reflexivity|]. split; [exact A|]. destruct (c_pk c); [rewrite (K eq_refl) in A; discriminate|reflexivity].
    + right. rewrite (One _ M') in X. apply O; assumption.
Qed.
Lemma lq_databases : forall fk sv blob o sc css, In blob ["blob"; "longblob"] ->
  lq_generate fk o sc = Some css ->
  NoDup (map t_name (Database.select (lo_filter o) (s_tables sc))) ->
  (forall t, In t (Database.select (lo_filter o) (s_tables sc)) -> Database.well_formed t) ->
  (forall t c, In t (Database.select (lo_filter o) (s_tables sc)) -> In c (t_cols t) -> In (c_type c) octopus_types) ->
  exists bs, Database.run_log sv css [] = Some bs /\
    Forall2 (lq_values blob) (Database.select (lo_filter o) (s_tables sc)) bs.
Proof.
  intros fk sv blob o sc css B E N W T. destruct (SchemaMigration.lq_generate_runs fk sv o sc css E N W) as [bs [R F]].
  exists bs. split; [exact R|]. eapply Forall2_impl_in; [|exact F]. intros t b It [[Hn _] Cs]. split; [exact Hn|].
  eapply Forall2_impl_in; [|exact Cs]. intros c d Ic D. eapply lq_column; [exact B|exact (T t c It Ic)| |exact D].
  apply (proj2 (W t It) c Ic).
Qed.
