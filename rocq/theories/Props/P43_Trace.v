(** Where values are after a migration (C118) *)
From Coq Require Import String Ascii List NArith Bool.
From Verif.Model Require Import GoString Util Octopus DiffCore Diff DiffWriters Liquibase.
From Verif.Spec Require Import DiffSpec LiquibaseSpec Database MysqlGrammar MysqlSpec FlywaySpec TraceSpec.
From Verif.Proofs Require Import FlywayFacts ReverseCases UnchangedCases TraceLog TraceReport TraceCases.
Import ListNotations.
Local Open Scope string_scope.

(** C118. A change log brings the values of the columns of the old schema to the new one: they stay where they were if the
    new schema has the place, else they go to a new column that is like theirs, no two of them end in one place, and they
    are lost only if all the places where they may go have got other values. The places of the new schema that get no old values are those that the log makes. *)
Theorem C118_log_partial : forall fk ordT ordC o from to css,
  lq_diff fk ordT ordC o from to = Some css ->
  iteration_order ordT -> (forall i, iteration_order (ordC i)) ->
  all_distinct (s_tables from) -> all_distinct (select (lo_filter o) (s_tables to)) ->
  brings (lo_comments o) (s_tables from) (select (lo_filter o) (s_tables to)) (trace log_moves (lq_all css)) /\
  forall q, has (select (lo_filter o) (s_tables to)) q ->
    (Exists (makes q) (lq_all css) <-> ~ exists p, has (s_tables from) p /\ trace log_moves (lq_all css) p = Some q).
Proof. exact log_brings. Qed.
Print Assumptions C118_log_partial.

Example C118_log_case :
  all_distinct (s_tables vx_from) /\ all_distinct (s_tables vx_to) /\
  map (fun p => (p, trace log_moves (tx_lq vx_from vx_to) p)) (tx_places (s_tables vx_from)) =
  [(("first", "id"), Some ("one", "id")); (("first", "code"), Some ("one", "code")); (("old", "id"), None);
   (("second", "id"), Some ("two", "id")); (("second", "code"), Some ("two", "code"));
   (("user", "id"), Some ("user", "id")); (("user", "a"), Some ("user", "c")); (("user", "b"), Some ("user", "d"));
   (("user", "age"), Some ("user", "age"))].
Proof. exact tx_log_case. Qed.

Example C118_lost_case :
  trace log_moves (tx_lq tx_two tx_one) ("users", "nick") = None /\
  may_move true (s_tables tx_two) (s_tables tx_one) ("users", "nick") ("users", "title") /\
  trace log_moves (tx_lq tx_two tx_one) ("users", "name") = Some ("users", "title").
Proof. exact tx_lost_case. Qed.

(** the same of the changes that the other comparison reports *)
Theorem C118_report_partial : forall ordT ordC o from to css,
  get_diff ordT ordC o from to = Some css ->
  iteration_order ordT -> (forall i, iteration_order (ordC i)) ->
  all_distinct (s_tables from) -> all_distinct (select (do_filter o) (s_tables to)) ->
  brings (do_comments o) (s_tables from) (select (do_filter o) (s_tables to)) (trace change_moves (all_changes css)).
Proof. exact report_brings. Qed.
Print Assumptions C118_report_partial.

Example C118_report_case :
  map (trace change_moves (tx_diff vx_opt vx_from vx_to)) (tx_places (s_tables vx_from)) =
  map (trace log_moves (tx_lq vx_from vx_to)) (tx_places (s_tables vx_from)).
Proof. exact tx_report_case. Qed.

(** and of the Flyway script, if no column of a remaining table disappears *)
Theorem C118_script_partial : forall reserved ordT ordC o from to css,
  get_diff ordT ordC o from to = Some css ->
  iteration_order ordT -> (forall i, iteration_order (ordC i)) ->
  distinct_names from -> distinct_names to ->
  Forall (plain_table (alter_reserved reserved) (do_suffix o)) (s_tables to) ->
  Forall (fun t => plain_ident (alter_reserved reserved) (t_name t)) (s_tables from) ->
  (forall t old, In t (s_tables to) -> In old (s_tables from) -> t_name old = t_name t -> incl (map c_name (t_cols old)) (map c_name (t_cols t))) ->
  exists stmts, read_script reserved (flyway_write (do_suffix o) css) = Some stmts /\
    brings (do_comments o) (s_tables from) (select (do_filter o) (s_tables to)) (trace sql_moves stmts).
Proof. exact script_brings. Qed.
Print Assumptions C118_script_partial.

Example C118_script_case :
  distinct_names fx_from /\ distinct_names fx_to /\
  (forall t old, In t (s_tables fx_to) -> In old (s_tables fx_from) -> t_name old = t_name t ->
     incl (map c_name (t_cols old)) (map c_name (t_cols t))) /\
  option_map (fun stmts => map (fun p => (p, trace sql_moves stmts p)) (tx_places (s_tables fx_from)))
    (read_script fx_reserved (flyway_write (do_suffix fx_o) fx_css)) =
  Some [(("item", "id"), Some ("item", "id")); (("item", "code"), Some ("item", "code")); (("gone", "id"), None)].
Proof. exact tx_script_case. Qed.

(** False as stated: the script of a renamed column leaves its values under the old name, *)
Theorem C118_script_refuted : exists css,
  get_diff (fun l => l) (fun _ l => l) nx_o tx_old tx_new = Some css /\
  trace change_moves (all_changes css) ("users", "name") = Some ("users", "title") /\
  read_script fx_reserved (flyway_write (do_suffix nx_o) css) = Some [] /\
  trace sql_moves [] ("users", "name") = Some ("users", "name") /\
  has (s_tables tx_old) ("users", "name") /\ ~ has (s_tables tx_new) ("users", "name").
Proof. exact script_leaves. Qed.
Print Assumptions C118_script_refuted.

(** values of tables that the chosen groups leave out are lost, *)
Theorem C118_groups_refuted : exists f css log,
  get_diff (fun l => l) (fun _ l => l) (mkDiffOption f "" "_uq" true) nx_from nx_from = Some css /\
  lq_diff (fun _ => true) (fun l => l) (fun _ l => l) (mkLqOption f "" "_uq" true) nx_from nx_from = Some log /\
  has (s_tables nx_from) ("logs", "line") /\
  trace change_moves (all_changes css) ("logs", "line") = None /\ trace log_moves (lq_all log) ("logs", "line") = None.
Proof. exact groups_lose. Qed.
Print Assumptions C118_groups_refuted.

(** and an unrelated new column takes over the values of a removed one if it is like it. *)
Theorem C118_taken_refuted : exists css,
  lq_diff (fun _ => true) (fun l => l) (fun _ l => l) nx_lo
    (nx_s [mkTable "users" [nx_id; nx_col "password" 20] "" "" "" []])
    (nx_s [mkTable "users" [nx_id; nx_col "nickname" 20] "" "" "" []]) = Some css /\
  lq_all css = [LqRenameColumn "users" "nickname" "password" "varchar(20)"] /\
  trace log_moves (lq_all css) ("users", "password") = Some ("users", "nickname").
Proof. exact values_taken. Qed.
Print Assumptions C118_taken_refuted.
