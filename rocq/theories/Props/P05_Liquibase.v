(** Properties of /repo/format/liquibase/{diff,generator}.go.

    [fk] says whether strconv.ParseFloat accepts a string; [sv] describes the server the change
    log is run on (Spec/Database.v). *)
From Coq Require Import String Ascii List NArith Bool Sorting.Permutation.
From Verif.Model Require Import GoString Util Octopus DiffCore Liquibase.
From Verif.Spec Require Import Text DiffSpec LiquibaseSpec Database.
From Verif.Proofs Require Import LiquibaseProofs SchemaMigration LiquibaseFacts LiquibaseWitnesses.
Import ListNotations.
Local Open Scope string_scope.

(** C16, Liquibase *)
Theorem C16_liquibase_self_diff_empty : forall fk ordT ordC o s,
  iteration_order ordT -> (forall i, iteration_order (ordC i)) ->
  distinct_names s -> (forall t, In t (s_tables s) -> selected (lo_filter o) t) ->
  lq_diff fk ordT ordC o s s = Some [].
Proof. exact lq_self_diff_empty. Qed.
Print Assumptions C16_liquibase_self_diff_empty.

Example C16_liquibase_case : lq_diff (fun _ => false) lx_ord (fun _ => lx_ord) lx_o lx_to4 lx_to4 = Some [].
Proof. vm_compute. reflexivity. Qed.

(** C17, Liquibase *)
Theorem C17_liquibase_ids_distinct : forall fk ordT ordC o from to css,
  lq_diff fk ordT ordC o from to = Some css -> NoDup (map lq_id css).
Proof. exact lq_diff_ids. Qed.
Print Assumptions C17_liquibase_ids_distinct.

Theorem C17_liquibase_generate_ids_distinct : forall fk o s css,
  lq_generate fk o s = Some css -> NoDup (map lq_id css).
Proof. exact lq_generate_ids. Qed.
Print Assumptions C17_liquibase_generate_ids_distinct.

Example C17_liquibase_case : map lq_id lx_log4 =
    ["1-1"; "1-2"; "1-3"; "1-4"; "1-5"; "1-6"; "2"; "3"; "3-1"; "3-2"; "4-1"; "4-2"] /\
  option_map (map lq_id) (lq_generate (fun _ => false) lx_o lx_from4) = Some ["1-1"; "1-2"; "2-1"; "3-1"; "3-2"].
Proof. split; vm_compute; reflexivity. Qed.

(** C18, Liquibase *)
Theorem C18_liquibase_classification : forall fk ordT ordC o from to css,
  lq_diff fk ordT ordC o from to = Some css ->
  iteration_order ordT -> (forall i, iteration_order (ordC i)) ->
  let chs := lq_all css in
  (NoDup (flat_map lq_gone chs) /\
   forall n, In n (flat_map lq_gone chs) <->
     In n (map t_name (s_tables from)) /\ ~ In n (map t_name (select (lo_filter o) (s_tables to)))) /\
  Permutation (flat_map lq_appeared chs)
    (map t_name (filter (fun t => negb (str_mem (t_name t) (map t_name (s_tables from))))
                        (select (lo_filter o) (s_tables to)))) /\
  (forall nw old, In (LqRenameTable nw old) chs ->
     exists t t', In t (select (lo_filter o) (s_tables to)) /\ t_name t = nw /\
       In t' (s_tables from) /\ t_name t' = old /\ t_cols t = t_cols t').
Proof. exact lq_classification. Qed.
Print Assumptions C18_liquibase_classification.

Example C18_liquibase_case :
  flat_map lq_gone (lq_all lx_log4) = ["gone"; "before"] /\
  flat_map lq_appeared (lq_all lx_log4) = ["after"; "fresh"].
Proof. split; vm_compute; reflexivity. Qed.

(** C25. Full statement: as the partial theorem, without the two hypotheses on tables in both
    schemas ([migratable], and equal descriptions for renamed tables). False: making a column
    unique in a table without unique columns drops a constraint that does not exist; *)
Theorem C25_new_unique_refuted : forall fk sv, exists o from to css s,
  NoDup (map t_name (s_tables from)) /\ NoDup (map t_name (s_tables to)) /\
  (forall t, In t (s_tables from) \/ In t (s_tables to) -> well_formed t) /\
  lq_diff fk lx_ord (fun _ => lx_ord) o from to = Some css /\
  is_database (has_table fk (lo_comments o) (lo_suffix o)) (s_tables from) s /\
  run_log sv css s = None.
Proof. exact lq_migration_refuted. Qed.
Print Assumptions C25_new_unique_refuted.

(** dropping the only key column makes the later dropPrimaryKey fail; *)
Theorem C25_dropped_key_refuted : forall fk sv, exists o from to css s,
  NoDup (map t_name (s_tables from)) /\ NoDup (map t_name (s_tables to)) /\
  (forall t, In t (s_tables from) \/ In t (s_tables to) -> well_formed t) /\
  lq_diff fk lx_ord (fun _ => lx_ord) o from to = Some css /\
  is_database (has_table fk (lo_comments o) (lo_suffix o)) (s_tables from) s /\
  run_log sv css s = None.
Proof. exact lq_key_refuted. Qed.
Print Assumptions C25_dropped_key_refuted.

(** auto-increment is never removed; *)
Theorem C25_autoincrement_refuted : forall fk sv, exists o from to css s,
  NoDup (map t_name (s_tables from)) /\ NoDup (map t_name (s_tables to)) /\
  (forall t, In t (s_tables from) \/ In t (s_tables to) -> well_formed t) /\
  lq_diff fk lx_ord (fun _ => lx_ord) o from to = Some css /\
  is_database (has_table fk (lo_comments o) (lo_suffix o)) (s_tables from) s /\
  ~ exists s', run_log sv css s = Some s' /\ is_database (good_table fk (lo_comments o)) (s_tables to) s'.
Proof. exact lq_autoinc_refuted. Qed.
Print Assumptions C25_autoincrement_refuted.

(** a database made by the tool's own generator has a second constraint on a single unique
    column, which the diff does not know about. *)
Theorem C25_generated_refuted : forall fk sv, exists o from to css0 s css,
  NoDup (map t_name (s_tables from)) /\ NoDup (map t_name (s_tables to)) /\
  (forall t, In t (s_tables from) \/ In t (s_tables to) -> well_formed t) /\
  lq_generate fk o from = Some css0 /\ run_log sv css0 [] = Some s /\
  lq_diff fk lx_ord (fun _ => lx_ord) o from to = Some css /\
  ~ exists s', run_log sv css s = Some s' /\ is_database (good_table fk (lo_comments o)) (s_tables to) s'.
Proof. exact lq_generated_refuted. Qed.
Print Assumptions C25_generated_refuted.

Theorem C25_migration_partial : forall fk sv ordT ordC o from to css s,
  lq_diff fk ordT ordC o from to = Some css ->
  iteration_order ordT -> (forall i, iteration_order (ordC i)) ->
  NoDup (map t_name (s_tables from)) -> NoDup (map t_name (s_tables to)) ->
  (forall t, In t (s_tables from) \/ In t (s_tables to) -> well_formed t) ->
  (forall t old, In t (s_tables to) -> selected (lo_filter o) t -> In old (s_tables from) -> t_name old = t_name t ->
     migratable fk sv (lq_all css) old t) ->
  (forall t old, In t (s_tables to) -> In old (s_tables from) -> lo_comments o = true ->
     In (LqRenameTable (t_name t) (t_name old)) (lq_all css) -> t_desc t = t_desc old) ->
  is_database (has_table fk (lo_comments o) (lo_suffix o)) (s_tables from) s ->
  exists s', run_log sv css s = Some s' /\
    is_database (good_table fk (lo_comments o)) (select (lo_filter o) (s_tables to)) s'.
Proof. exact lq_diff_migrates. Qed.
Print Assumptions C25_migration_partial.

(** a table with a renamed, an added and two changed columns and a changed unique constraint;
    a dropped, a renamed and a created table *)
Example C25_case :
  lq_diff (fun _ => false) lx_ord (fun _ => lx_ord) lx_o lx_from4 lx_to4 = Some lx_log4 /\
  (forall t, In t (s_tables lx_from4) \/ In t (s_tables lx_to4) -> well_formed t) /\
  (forall t old, In t (s_tables lx_to4) -> selected (lo_filter lx_o) t -> In old (s_tables lx_from4) ->
     t_name old = t_name t -> migratable (fun _ => false) lx_sv (lq_all lx_log4) old t) /\
  is_database (has_table (fun _ => false) true "_uq") (s_tables lx_from4) (map (lx_b "_uq") (s_tables lx_from4)) /\
  option_map (map b_name) (run_log lx_sv lx_log4 (map (lx_b "_uq") (s_tables lx_from4))) = Some ["u"; "after"; "fresh"].
Proof.
  exact (conj lx_case4_diff (conj lx_case4_wf (conj lx_case4_migratable (conj lx_case4_database eq_refl)))).
Qed.

(** C26. Full statement: as the partial theorem without the hypothesis on unique columns.
    False in both parts. *)
Theorem C26_drop_unique_refuted : forall fk, exists o from to css n name,
  NoDup (map t_name (s_tables from)) /\ NoDup (map t_name (s_tables to)) /\
  (forall t, In t (s_tables from) \/ In t (s_tables to) -> well_formed t) /\
  lq_diff fk lx_ord (fun _ => lx_ord) o from to = Some css /\
  In (LqDropUniqueConstraint n name) (lq_all css) /\
  forall old, In old (s_tables from) -> ~ exists k, uq_of old k.
Proof. exact lq_drop_unique_refuted. Qed.
Print Assumptions C26_drop_unique_refuted.

Theorem C26_empty_change_set_refuted : forall fk, exists o from to css cs,
  NoDup (map t_name (s_tables from)) /\ NoDup (map t_name (s_tables to)) /\
  (forall t, In t (s_tables from) \/ In t (s_tables to) -> well_formed t) /\
  lq_diff fk lx_ord (fun _ => lx_ord) o from to = Some css /\ In cs css /\ lq_changes cs = [].
Proof. exact lq_empty_change_set_refuted. Qed.
Print Assumptions C26_empty_change_set_refuted.

Theorem C26_constraints_partial : forall fk ordT ordC o from to css,
  lq_diff fk ordT ordC o from to = Some css -> iteration_order ordT ->
  (forall t old, In t (s_tables to) -> selected (lo_filter o) t -> In old (s_tables from) -> t_name old = t_name t ->
     ~ (forall k, uq_of t k <-> uq_of old k) -> (exists k, uq_of old k) /\ (exists k, uq_of t k)) ->
  (forall cs, In cs css -> lq_changes cs <> []) /\
  (forall n name, In (LqDropUniqueConstraint n name) (lq_all css) ->
     exists old, In old (s_tables from) /\ t_name old = n /\ exists k, uq_of old k).
Proof. exact lq_constraints. Qed.
Print Assumptions C26_constraints_partial.

Example C26_case : In (LqDropUniqueConstraint "u" "u_uq") (lq_all lx_log4) /\
  In (LqDropUniqueConstraint "before" "before_uq") (lq_all lx_log4).
Proof. vm_compute. auto 12. Qed.

(** C27. Full statement: as the partial theorem for every schema with distinct names. A key
    column that is nullable cannot be had in the database; a comma in the name of a unique
    column breaks the generated constraint. *)
Theorem C27_comma_refuted : forall fk sv, sv_pre_holds sv = true -> exists o sc css,
  NoDup (map t_name (s_tables sc)) /\ (forall t, In t (s_tables sc) -> NoDup (map c_name (t_cols t))) /\
  (forall t c, In t (s_tables sc) -> In c (t_cols t) -> c_pk c = true -> c_notnull c = true) /\
  lq_generate fk o sc = Some css /\ run_log sv css [] = None.
Proof. exact lq_comma_refuted. Qed.
Print Assumptions C27_comma_refuted.

Theorem C27_generate_partial : forall fk sv o sc css,
  lq_generate fk o sc = Some css ->
  NoDup (map t_name (select (lo_filter o) (s_tables sc))) ->
  (forall t, In t (select (lo_filter o) (s_tables sc)) -> well_formed t) ->
  exists bs, run_log sv css [] = Some bs /\
    Forall2 (fresh_table fk (lo_comments o)) (select (lo_filter o) (s_tables sc)) bs.
Proof. exact lq_generate_runs. Qed.
Print Assumptions C27_generate_partial.

Example C27_case :
  (forall t, In t (s_tables lx_to4) -> well_formed t) /\
  match lq_generate (fun _ => false) lx_o lx_to4 with
  | Some css => option_map (map (fun b => (b_name b, b_pk b, map snd (b_uqs b)))) (run_log lx_sv css [])
  | None => None
  end = Some [("u", ["id"], [["code"; "mail"]]); ("after", ["id"], [["x"]; ["x"]]); ("fresh", ["a"; "b"], [])].
Proof. exact (conj (fun t H => lx_case4_wf t (or_intror H)) eq_refl). Qed.

(** C28. Full statement: as the partial theorem without the hypothesis on the first column.
    False: Liquibase has afterColumn only, and the tool gives none for a new first column,
    which is therefore added at the end. *)
Theorem C28_first_column_refuted : forall fk sv, exists o from to css n adds t b b',
  NoDup (map t_name (s_tables from)) /\ NoDup (map t_name (s_tables to)) /\
  (forall t, In t (s_tables from) \/ In t (s_tables to) -> well_formed t) /\
  lq_diff fk lx_ord (fun _ => lx_ord) o from to = Some css /\
  In (LqAddColumn n adds) (lq_all css) /\ In t (s_tables to) /\ t_name t = n /\
  map d_name (b_cols b) = filter (fun k => negb (str_mem k (map lc_name adds))) (map c_name (t_cols t)) /\
  table_step sv b (LqAddColumn n adds) = Some b' /\ map d_name (b_cols b') <> map c_name (t_cols t).
Proof. exact lq_first_column_refuted. Qed.
Print Assumptions C28_first_column_refuted.

Theorem C28_placement_partial : forall fk sv ordT ordC o from to css n adds t b,
  lq_diff fk ordT ordC o from to = Some css ->
  iteration_order ordT -> (forall i, iteration_order (ordC i)) ->
  NoDup (map t_name (s_tables to)) ->
  In (LqAddColumn n adds) (lq_all css) -> In t (s_tables to) -> t_name t = n ->
  NoDup (map c_name (t_cols t)) -> (forall c, In c (t_cols t) -> c_name c <> "") ->
  (match t_cols t with [] => True | c :: _ => ~ In (c_name c) (map lc_name adds) end) ->
  map d_name (b_cols b) = filter (fun k => negb (str_mem k (map lc_name adds))) (map c_name (t_cols t)) ->
  exists b', table_step sv b (LqAddColumn n adds) = Some b' /\ map d_name (b_cols b') = map c_name (t_cols t).
Proof. exact lq_added_order. Qed.
Print Assumptions C28_placement_partial.

Example C28_case :
  map (fun ch => match ch with LqAddColumn n adds => (n, map (fun a => (lc_name a, lc_after a)) adds) | _ => ("", []) end)
    (filter (fun ch => match ch with LqAddColumn _ _ => true | _ => false end) (lq_all lx_log4)) =
  [("u", [("extra", "n")])].
Proof. vm_compute. reflexivity. Qed.
