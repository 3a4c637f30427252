(** Databases made by the DDL and by the change log (C111) *)
From Coq Require Import String Ascii List NArith ZArith Bool.
From Verif.Model Require Import GoString Octopus Liquibase Mysql.
From Verif.Spec Require Import Text MysqlGrammar MysqlSpec FlywaySpec LiquibaseSpec Database ServerSpec CreatedSpec.
From Verif.Proofs Require Import ServerCases Created CreatedCases.
Import ListNotations.
Local Open Scope string_scope.

(** C111. The DDL and the change log of one schema make the same tables: the same columns in the same order, with the
    same names, null, auto-increment and default values and comments, the same primary keys and the same unique keys. *)
Theorem C111_same_partial : forall reserved fk sv o s css,
  proper reserved (lo_suffix o) (selection (lo_filter o) (s_tables s)) ->
  (forall t c, In t (selection (lo_filter o) (s_tables s)) -> In c (t_cols t) -> common_default c /\ (c_pk c = true -> c_notnull c = true)) ->
  sv_pre_holds sv = true -> lq_generate fk o s = Some css ->
  exists stmts bs ds, read_sql reserved (my_export (lo_filter o) (lo_suffix o) s) = Some stmts /\
    run_stmts [] (map MCreate stmts) = Some bs /\ run_log sv css [] = Some ds /\ Forall2 (same_db_table (lo_comments o)) bs ds.
Proof. exact both_create. Qed.
Print Assumptions C111_same_partial.

Example C111_case :
  proper sx_reserved "_uq" (s_tables cx_schema) /\
  (forall t c, In t (s_tables cx_schema) -> In c (t_cols t) -> common_default c /\ (c_pk c = true -> c_notnull c = true)) /\
  lq_generate (fun _ => true) cx_o cx_schema = Some (cx_log cx_schema) /\
  map (fun b => (q_table b, map q_name (q_cols b), q_pk b, q_keys b)) (sx_server sx_reserved "_uq" cx_schema) =
    [("pairs", ["a"; "b"; "price"; "code"; "on_sale"], ["a"; "b"], [KUniq "pairs_uq" ["b"; "code"]])] /\
  option_map (map (fun d => (b_name d, map d_name (b_cols d), b_pk d, b_uqs d))) (run_log cx_sv (cx_log cx_schema) []) =
    Some [("pairs", ["a"; "b"; "price"; "code"; "on_sale"], ["a"; "b"], [(Some "pairs_uq", ["b"; "code"])])].
Proof. exact (conj cx_proper (conj cx_common cx_case)). Qed.

(** Not the same: the change log makes no indices, and two unique keys where one column has to be unique. *)
Theorem C111_keys_refuted : exists s b d, made s b d /\
  q_keys b = [KUniq "item_uq" ["code"]; KIndex "by_code" ["code"; "id"]] /\
  b_uqs d = [(Some "item_uq", ["code"]); (None, ["code"])].
Proof. exact keys_differ. Qed.
Print Assumptions C111_keys_refuted.

(** It has a text where the DDL has CURRENT_TIMESTAMP, no on-update values, and false where the DDL has 1. *)
Theorem C111_defaults_refuted : exists s b d, made s b d /\
  map (fun q => (q_name q, q_default q, q_onupdate q)) (q_cols b) =
    [("id", None, None); ("at", Some (EFunc "CURRENT_TIMESTAMP"), Some (EFunc "CURRENT_TIMESTAMP")); ("active", Some (EValue (Some "1")), None)] /\
  map (fun c => (d_name c, d_default c)) (b_cols d) =
    [("id", no_default); ("at", mkLqDefault "" None None "fn::CURRENT_TIMESTAMP"); ("active", mkLqDefault "" (Some false) None "")].
Proof. exact defaults_differ. Qed.
Print Assumptions C111_defaults_refuted.
