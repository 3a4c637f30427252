(** Generated models and the database they are for (C112) *)
From Coq Require Import String Ascii List NArith Bool Arith.
From Verif.Model Require Import GoString Util Octopus Common Mysql Sqlalchemy Jpa Gorm.
From Verif.Spec Require Import Text DiffSpec Reading OctopusSpec GraphqlSpec MysqlGrammar FlywaySpec MysqlSpec ServerSpec MappedSpec.
From Verif.Spec Require SqlalchemySpec KotlinSpec GormSpec MappedPySpec MappedKtSpec MappedGoSpec.
From Verif.Proofs Require JpaCases MappedPy MappedKt MappedGo.
From Verif.Proofs Require Import ServerCases MappedCases.
Import ListNotations.
Local Open Scope string_scope.

(** C112. The SQLAlchemy classes fit the tables that the DDL of the same schema makes, if no table has two unique columns. *)
Theorem C112_python_partial : forall camel snake reserved o s output, SqlalchemySpec.python_path output ->
  SqlalchemySpec.py_names_ok camel snake (get_prefix (so_prefix o)) (so_remove o) (so_suffix o) (filter (passes (so_filter o)) (s_tables s)) ->
  proper reserved (so_suffix o) (selection (so_filter o) (s_tables s)) ->
  (forall t, In t (selection (so_filter o) (s_tables s)) -> length (filter c_uq (t_cols t)) <= 1 /\
     forall c, In c (t_cols t) -> c_autoinc c = true -> c_notnull c = true -> c_pk c = true) ->
  exists text f stmts bs, sa_generate camel snake o s output = [(output, text)] /\ SqlalchemySpec.read_python text = Some f /\
    read_sql reserved (my_export (so_filter o) (so_suffix o) s) = Some stmts /\ run_stmts [] (map MCreate stmts) = Some bs /\
    Forall2 (fun b m => exists g, MappedPySpec.mapping_of m = Some g /\ fits b g) bs (filter SqlalchemySpec.is_model f).
Proof. exact MappedPy.python_fits. Qed.
Print Assumptions C112_python_partial.

Example C112_python_case : py_pair (bx_schema (bx_member false)) (bx_sql (bx_schema (bx_member false)))
  (mkMapping "member" [mkMapped "user_id" true true true; mkMapped "group_id" false true false; mkMapped "code" false false false] [(None, ["group_id"])]).
Proof. exact py_case. Qed.

(** With two, each of them is unique on its own and the key over both is missing. *)
Theorem C112_python_unique_refuted : exists s b g, py_pair s b g /\ q_keys b = [KUniq "member_uq" ["group_id"; "code"]] /\
  mg_unique g = [(None, ["group_id"]); (None, ["code"])] /\ ~ fits b g.
Proof. exact py_unique. Qed.
Print Assumptions C112_python_unique_refuted.

(** An auto-increment column outside the key may be null in the class. *)
Theorem C112_python_null_refuted : exists s b g, py_pair s b g /\
  map (fun q => (q_name q, q_notnull q)) (q_cols b) = [("no", true); ("note", false)] /\
  map (fun m => (mp_column m, mp_required m)) (mg_columns g) = [("no", false); ("note", false)] /\ ~ fits b g.
Proof. exact py_null. Qed.
Print Assumptions C112_python_null_refuted.

(** The Kotlin entities fit the tables if the columns of the constraints can be found. *)
Theorem C112_kotlin_partial : forall camel lower_camel snake path_join reserved o s output wanted,
  KotlinSpec.kt_names_ok camel lower_camel (get_prefix (ko_prefix o)) (ko_remove o) (ko_identity o) (ko_relation o) (ko_suffix o) (filter (passes (ko_filter o)) (s_tables s)) ->
  KotlinSpec.package_ok (ko_package o) ->
  (forall t, In t (filter (passes (ko_filter o)) (s_tables s)) -> KotlinSpec.annotations (get_annotations (ko_anno o) (t_group t)) (wanted (t_group t))) ->
  (ko_repos o = "" \/ KotlinSpec.package_ok (ko_repos o) /\ forall t, In t (filter (passes (ko_filter o)) (s_tables s)) -> KotlinSpec.keys t <> []) ->
  (forall g, ~ In "Table" (wanted g)) ->
  proper reserved (ko_suffix o) (selection (ko_filter o) (s_tables s)) ->
  (forall t, In t (selection (ko_filter o) (s_tables s)) -> MappedKtSpec.findable lower_camel snake t) ->
  exists entities repos stmts bs, kt_generate camel lower_camel snake path_join o s output = ((entities ++ repos)%list, KtDone) /\
    read_sql reserved (my_export (ko_filter o) (ko_suffix o) s) = Some stmts /\ run_stmts [] (map MCreate stmts) = Some bs /\
    Forall2 (fun b file => exists f d more g, KotlinSpec.read_kotlin (snd file) = Some f /\ KotlinSpec.ki_decls f = d :: more /\
      MappedKtSpec.mapping_of snake d = Some g /\ fits b g) bs entities.
Proof. exact MappedKt.kotlin_fits. Qed.
Print Assumptions C112_kotlin_partial.

Example C112_kotlin_case : kt_pair (bx_schema (bx_member true)) (bx_sql (bx_schema (bx_member true)))
    (mkMapping "member" [mkMapped "user_id" true true true; mkMapped "group_id" false true false; mkMapped "code" false false false]
       [(Some "member_uq", ["group_id"; "code"])]) /\
  (forall t, In t (s_tables (bx_schema (bx_member true))) -> MappedKtSpec.findable kt_email JpaCases.kt_snake t).
Proof. exact kt_case. Qed.

(** Otherwise the constraint names no column. *)
Theorem C112_kotlin_unique_refuted : exists s b g, kt_pair s b g /\ q_keys b = [KUniq "user_uq" ["eMail"]] /\
  map mp_column (mg_columns g) = ["eMail"] /\ mg_unique g = [(Some "user_uq", [])] /\ ~ fits b g.
Proof. exact kt_unique. Qed.
Print Assumptions C112_kotlin_unique_refuted.

(** The GORM structs without embedded structs fit the tables. GORM's naming must not depend on the ID at the end. *)
Theorem C112_gorm_partial : forall camel snake naming om on reserved m o s,
  (forall k, iteration_order (om k)) -> (forall k, iteration_order (on k)) -> GormSpec.models_ok m ->
  GormSpec.go_names_ok camel (get_prefix (go_prefix o)) (go_remove o) (go_suffix o) (s_tables s) (filter (passes (go_filter o)) (s_tables s)) ->
  one_line (go_package o) ->
  (forall x b, GormSpec.camel_id camel x b -> naming b = snake (camel x)) ->
  proper reserved (go_suffix o) (selection (go_filter o) (s_tables s)) ->
  (forall t, In t (selection (go_filter o) (s_tables s)) ->
     (forall n cols, In (n, cols) (embed_models m (go_embed o)) -> ~ GormSpec.fits_table t cols) /\
     forall c, In c (t_cols t) -> c_autoinc c = true -> c_notnull c = true -> c_pk c = true) ->
  exists f stmts bs, GormSpec.read_go (fst (gorm_generate camel snake om on m o s)) = Some f /\
    read_sql reserved (my_export (go_filter o) (go_suffix o) s) = Some stmts /\ run_stmts [] (map MCreate stmts) = Some bs /\
    Forall2 (fun b d => exists g, MappedGoSpec.mapping_of naming d = Some g /\ fits b g) bs (GormSpec.gf_decls f).
Proof. exact MappedGo.gorm_fits. Qed.
Print Assumptions C112_gorm_partial.

Example C112_gorm_case : go_pair (bx_schema (bx_member true)) (bx_sql (bx_schema (bx_member true)))
    (mkMapping "member" [mkMapped "user_id" true true true; mkMapped "group_id" false true false; mkMapped "code" false false false]
       [(Some "member_uq", ["group_id"; "code"]); (Some "member_uq", ["group_id"; "code"])]) /\
  (forall x b, GormSpec.camel_id go_camel x b -> go_naming b = go_snake (go_camel x)).
Proof. exact (conj go_case go_usual). Qed.

(** An auto-increment column outside the key may be null in the struct. *)
Theorem C112_gorm_null_refuted : exists s b g, go_pair s b g /\
  map (fun q => (q_name q, q_notnull q)) (q_cols b) = [("no", true); ("note", false)] /\
  map (fun m => (mp_column m, mp_required m)) (mg_columns g) = [("no", false); ("note", false)] /\ ~ fits b g.
Proof. exact go_null. Qed.
Print Assumptions C112_gorm_null_refuted.
