(** What SQL scripts do on a server (C99, C100) *)
From Coq Require Import String Ascii List NArith ZArith Bool.
From Verif.Model Require Import GoString Util Octopus DiffCore Diff Mysql DiffWriters.
From Verif.Spec Require Import Text Order DiffSpec MysqlGrammar MysqlSpec FlywaySpec MarkdownSpec ServerSpec.
From Verif.Proofs Require Import FlywayFacts ServerCases.
Import ListNotations.
Local Open Scope string_scope.

(** C99. On a server that has no tables of these names, the DDL makes the tables the schema describes and keeps the rest. *)
Theorem C99_ddl_creates_partial : forall reserved f suffix s d,
  Forall (plain_table reserved suffix) (selection f (s_tables s)) ->
  NoDup (map t_name (selection f (s_tables s))) ->
  (forall t, In t (selection f (s_tables s)) -> ~ In (t_name t) (map q_table d)) ->
  Forall (acceptable suffix) (selection f (s_tables s)) ->
  exists stmts bs, read_sql reserved (my_export f suffix s) = Some stmts /\
    run_stmts d (map MCreate stmts) = Some (d ++ bs)%list /\
    Forall2 (described_table suffix) (selection f (s_tables s)) bs.
Proof. exact ddl_creates. Qed.
Print Assumptions C99_ddl_creates_partial.

(** There is no other way to succeed. *)
Theorem C99_only_acceptable : forall reserved f suffix s d stmts d',
  Forall (plain_table reserved suffix) (selection f (s_tables s)) ->
  NoDup (map t_name (selection f (s_tables s))) ->
  (forall t, In t (selection f (s_tables s)) -> ~ In (t_name t) (map q_table d)) ->
  read_sql reserved (my_export f suffix s) = Some stmts ->
  run_stmts d (map MCreate stmts) = Some d' ->
  Forall (acceptable suffix) (selection f (s_tables s)).
Proof. exact ddl_acceptable. Qed.
Print Assumptions C99_only_acceptable.

(** Where tables of these names exist, whatever they are, nothing happens. *)
Theorem C99_again : forall reserved f suffix s d stmts,
  Forall (plain_table reserved suffix) (selection f (s_tables s)) ->
  (forall t, In t (selection f (s_tables s)) -> In (t_name t) (map q_table d)) ->
  read_sql reserved (my_export f suffix s) = Some stmts ->
  run_stmts d (map MCreate stmts) = Some d.
Proof. exact ddl_again. Qed.
Print Assumptions C99_again.

Example C99_case :
  proper sx_reserved "_uq" (s_tables sx_from) /\
  map (fun b => (q_table b, map q_name (q_cols b), q_pk b, q_keys b)) (sx_server sx_reserved "_uq" sx_from) =
  [("item", ["id"; "code"; "note"], ["id"], [KUniq "item_uq" ["code"]; KIndex "by_code" ["code"; "id"]]);
   ("gone", ["note"], [], []); ("pair", ["a"; "b"], ["a"], []); ("before", ["id"; "note"], ["id"], [])].
Proof. split; [exact sx_from_proper|vm_compute; reflexivity]. Qed.

(** The server refuses an auto-increment column without a key and an index on a missing column. *)
Theorem C99_ddl_creates_refuted : exists s1 s2,
  (forall s, s = s1 \/ s = s2 -> Forall (plain_table sx_reserved "_uq") (s_tables s) /\ NoDup (map t_name (s_tables s)) /\
     ~ creates sx_reserved "_uq" (my_export None "_uq" s) (s_tables s)) /\
  (exists t c, In t (s_tables s1) /\ In c (t_cols t) /\ c_autoinc c = true /\ c_pk c = false /\ c_uq c = false) /\
  (exists t i, In t (s_tables s2) /\ In i (t_indices t) /\ ix_cols i = ["b"; "z"] /\ map c_name (t_cols t) = ["a"; "b"]).
Proof. exact ddl_stops. Qed.
Print Assumptions C99_ddl_creates_refuted.

(** Of two tables with the same name the second is left out, without an error. *)
Theorem C99_same_name_refuted : exists s stmts d,
  Forall (plain_table sx_reserved "_uq") (s_tables s) /\ Forall (acceptable "_uq") (s_tables s) /\
  read_sql sx_reserved (my_export None "_uq" s) = Some stmts /\ run_stmts [] (map MCreate stmts) = Some d /\
  length (s_tables s) = 2 /\ length d = 1 /\ ~ described "_uq" (s_tables s) d.
Proof. exact ddl_skips. Qed.
Print Assumptions C99_same_name_refuted.

(** C100 *)
Theorem C100_script_migrates_partial : forall reserved ordT ordC o from to css,
  get_diff ordT ordC o from to = Some css ->
  iteration_order ordT -> (forall i, iteration_order (ordC i)) ->
  proper (alter_reserved reserved) (do_suffix o) (s_tables to) ->
  Forall (fun t => plain_ident (alter_reserved reserved) (t_name t)) (s_tables from) ->
  NoDup (map t_name (s_tables from)) ->
  (forall t old, In t (s_tables to) -> selected (do_filter o) t -> In old (s_tables from) -> t_name old = t_name t ->
     alterable old t) ->
  (forall nw old, In (RenameTable old nw) (all_changes css) ->
     (forall k, ~ uq_column nw k) /\ t_indices nw = t_indices old) ->
  migrates reserved (do_suffix o) (flyway_write (do_suffix o) css) (s_tables from) (selection (do_filter o) (s_tables to)).
Proof. exact script_migrates. Qed.
Print Assumptions C100_script_migrates_partial.

(** a table is altered in two ways, one gets a wider key, one is renamed, one dropped and one created *)
Example C100_case :
  get_diff fx_ord (fun _ => fx_ord) fx_o sx_from sx_to = Some sx_css /\
  proper (alter_reserved fx_reserved) (do_suffix fx_o) (s_tables sx_to) /\
  (forall t old, In t (s_tables sx_to) -> In old (s_tables sx_from) -> t_name old = t_name t -> alterable old t) /\
  (forall nw old, In (RenameTable old nw) (all_changes sx_css) ->
     (forall k, ~ uq_column nw k) /\ t_indices nw = t_indices old) /\
  described "_uq" (s_tables sx_from) (sx_server sx_reserved "_uq" sx_from) /\
  map kind_of (all_changes sx_css) = [KAutoOn; KNotNull; KPk; KDrop; KRename; KCreate] /\
  option_map (option_map (map (fun b => (q_table b, q_pk b, map q_notnull (q_cols b), map q_autoinc (q_cols b)))))
    (option_map (run_stmts (sx_server sx_reserved "_uq" sx_from)) (read_script fx_reserved (flyway_write "_uq" sx_css))) =
  Some (Some [("item", ["id"], [true; true; false], [true; false; false]); ("pair", ["a"; "b"], [true; true], [false; false]);
              ("after", ["id"], [true; false], [true; false]); ("fresh", ["id"], [true; true], [true; false])]).
Proof.
  exact (conj eq_refl (conj sx_to_proper (conj sx_alterable (conj sx_renamed
    (conj (proper_described sx_reserved "_uq" sx_from sx_from_proper) (conj eq_refl eq_refl)))))).
Qed.

(** Scripts the server stops at: a first primary key, and another primary key for an auto-increment column. *)
Theorem C100_first_key_refuted : exists from to css,
  proper sx_reserved "_uq" (s_tables from) /\ proper sx_reserved "_uq" (s_tables to) /\
  get_diff fx_ord (fun _ => fx_ord) fx_o from to = Some css /\ map kind_of (all_changes css) = [KPk] /\
  ~ migrates fx_reserved "_uq" (flyway_write "_uq" css) (s_tables from) (s_tables to).
Proof. exact no_key_stops. Qed.
Print Assumptions C100_first_key_refuted.

Theorem C100_other_key_refuted : exists from to css,
  proper sx_reserved "_uq" (s_tables from) /\ proper sx_reserved "_uq" (s_tables to) /\
  get_diff fx_ord (fun _ => fx_ord) fx_o from to = Some css /\ map kind_of (all_changes css) = [KPk] /\
  (forall t, In t (s_tables from) -> exists k, pk_column t k) /\
  ~ migrates fx_reserved "_uq" (flyway_write "_uq" css) (s_tables from) (s_tables to).
Proof. exact key_stops. Qed.
Print Assumptions C100_other_key_refuted.

(** Scripts that run and leave another database: indices, names of unique keys, comments of columns, types, columns added and dropped. *)
Theorem C100_index_refuted : exists from to css,
  proper sx_reserved "_uq" (s_tables from) /\ proper sx_reserved "_uq" (s_tables to) /\
  get_diff fx_ord (fun _ => fx_ord) fx_o from to = Some css /\ all_changes css = [] /\
  ~ migrates fx_reserved "_uq" (flyway_write "_uq" css) (s_tables from) (s_tables to).
Proof. exact index_differs. Qed.
Print Assumptions C100_index_refuted.

Theorem C100_rename_refuted : exists from to css,
  proper sx_reserved "_uq" (s_tables from) /\ proper sx_reserved "_uq" (s_tables to) /\
  get_diff fx_ord (fun _ => fx_ord) fx_o from to = Some css /\ In KRename (map kind_of (all_changes css)) /\
  ~ migrates fx_reserved "_uq" (flyway_write "_uq" css) (s_tables from) (s_tables to).
Proof. exact rename_differs. Qed.
Print Assumptions C100_rename_refuted.

Theorem C100_comment_refuted : exists from to css,
  proper sx_reserved "_uq" (s_tables from) /\ proper sx_reserved "_uq" (s_tables to) /\
  get_diff fx_ord (fun _ => fx_ord) fx_o from to = Some css /\ map kind_of (all_changes css) = [KNotNull] /\
  ~ migrates fx_reserved "_uq" (flyway_write "_uq" css) (s_tables from) (s_tables to).
Proof. exact comment_differs. Qed.
Print Assumptions C100_comment_refuted.

Theorem C100_type_refuted : exists from to css,
  proper sx_reserved "_uq" (s_tables from) /\ proper sx_reserved "_uq" (s_tables to) /\
  get_diff fx_ord (fun _ => fx_ord) fx_o from to = Some css /\ map kind_of (all_changes css) = [KType] /\
  ~ migrates fx_reserved "_uq" (flyway_write "_uq" css) (s_tables from) (s_tables to).
Proof. exact type_differs. Qed.
Print Assumptions C100_type_refuted.

Theorem C100_added_column_refuted : exists from to css,
  proper sx_reserved "_uq" (s_tables from) /\ proper sx_reserved "_uq" (s_tables to) /\
  get_diff fx_ord (fun _ => fx_ord) fx_o from to = Some css /\
  map (fun t => length (t_cols t)) (s_tables from) = [1] /\ map (fun t => length (t_cols t)) (s_tables to) = [3] /\
  ~ migrates fx_reserved "_uq" (flyway_write "_uq" css) (s_tables from) (s_tables to).
Proof. exact added_differs. Qed.
Print Assumptions C100_added_column_refuted.

Theorem C100_dropped_column_refuted : exists from to css,
  proper sx_reserved "_uq" (s_tables from) /\ proper sx_reserved "_uq" (s_tables to) /\
  get_diff fx_ord (fun _ => fx_ord) fx_o from to = Some css /\
  map (fun t => length (t_cols t)) (s_tables from) = [3] /\ map (fun t => length (t_cols t)) (s_tables to) = [1] /\
  ~ migrates fx_reserved "_uq" (flyway_write "_uq" css) (s_tables from) (s_tables to).
Proof. exact dropped_differs. Qed.
Print Assumptions C100_dropped_column_refuted.
