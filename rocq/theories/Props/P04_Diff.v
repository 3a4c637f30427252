(** Properties of /repo/format/diff/diff.go *)
From Coq Require Import String Ascii List NArith Bool Sorting.Permutation.
From Verif.Model Require Import GoString Util Octopus DiffCore Diff.
From Verif.Spec Require Import DiffSpec.
From Verif.Proofs Require Import DiffProofs DiffFacts.
Import ListNotations.
Local Open Scope string_scope.

(** the schemas used in the examples *)
Definition ex_id := mkCol "id" "int64" "" 0 0 true true false true "" "" [] None.
Definition ex_mail := mkCol "email" "varchar" "" 100 0 true false true false "" "" [] None.
Definition ex_name (n : string) (size : N) (d : string) :=
  mkCol n "varchar" "" size 0 false false false false d "" [] None.
Definition ex_users := mkTable "users" [ex_id; ex_mail; ex_name "name" 20 ""] "people" "a" "" [].
Definition ex_users2 := mkTable "users" [ex_id; ex_name "email" 100 ""; ex_name "name" 30 "x"] "all people" "a" "" [].
Definition ex_orders := mkTable "orders" [ex_id; ex_name "code" 8 ""] "" "b" "" [].
Definition ex_sales := mkTable "sales" [ex_id; ex_name "code" 8 ""] "" "b" "" [].
Definition ex_log := mkTable "log" [ex_id] "" "b" "" [].
Definition ex_tags := mkTable "tags" [ex_mail] "" "a" "" [].
Definition ex_from := mkSchema "me" "db" "1" [ex_users; ex_orders; ex_log].
Definition ex_to := mkSchema "me" "db" "2" [ex_users2; ex_sales; ex_tags].
Definition ex_opt := mkDiffOption None "" "_uq" true.
Definition ex_ord {A} (l : list A) := rev l.

(** C16. The Liquibase diff: C16_liquibase_self_diff_empty in P05_Liquibase. *)
Theorem C16_self_diff_empty : forall ordT ordC o s,
  iteration_order ordT -> (forall i, iteration_order (ordC i)) ->
  distinct_names s -> (forall t, In t (s_tables s) -> selected (do_filter o) t) ->
  get_diff ordT ordC o s s = Some [].
Proof. exact self_diff_empty. Qed.
Print Assumptions C16_self_diff_empty.

Example C16_case : get_diff ex_ord (fun _ => ex_ord) ex_opt ex_from ex_from = Some [].
Proof. vm_compute. reflexivity. Qed.

(** C17. The Liquibase ids: C17_liquibase_ids_distinct in P05_Liquibase. *)
Theorem C17_ids_distinct : forall ordT ordC o from to css,
  get_diff ordT ordC o from to = Some css -> NoDup (map cs_id css).
Proof. exact get_diff_ids. Qed.
Print Assumptions C17_ids_distinct.

(** the diff never fails, so the hypothesis can always be met *)
Theorem C17_diff_total : forall ordT ordC o from to, exists css, get_diff ordT ordC o from to = Some css.
Proof. exact get_diff_total. Qed.
Print Assumptions C17_diff_total.

Example C17_case :
  option_map (map cs_id) (get_diff ex_ord (fun _ => ex_ord) ex_opt ex_from ex_to) =
  Some ["1-1"; "1-2"; "1-3"; "1-4"; "1-5"; "2"; "3-1"; "4"].
Proof. vm_compute. reflexivity. Qed.

(** C18. Without a filter every table is [selected]. [news] lists the positions of the
    new schema's tables whose name the old schema does not have: each is created, or the
    target of a rename, exactly once. *)
Theorem C18_table_classification : forall ordT ordC o from to css,
  get_diff ordT ordC o from to = Some css ->
  iteration_order ordT -> (forall i, iteration_order (ordC i)) ->
  let chs := all_changes css in
  (NoDup (flat_map gone chs) /\
   forall n, In n (flat_map gone chs) <->
     In n (map t_name (s_tables from)) /\
     ~ exists t, In t (s_tables to) /\ selected (do_filter o) t /\ t_name t = n) /\
  (exists news, Permutation (flat_map appeared chs) (map snd news) /\ NoDup (map fst news) /\
     forall i t, In (i, t) news <->
       nth_error (s_tables to) i = Some t /\ selected (do_filter o) t /\
       ~ In (t_name t) (map t_name (s_tables from))) /\
  (forall old nw, In (RenameTable old nw) chs -> In old (s_tables from) /\ t_cols nw = t_cols old) /\
  (forall old, In (DropTable old) chs -> In old (s_tables from)) /\
  (forall old nw, In (DropTable old) chs -> In (CreateTable nw) chs -> t_cols nw <> t_cols old).
Proof. exact classification. Qed.
Print Assumptions C18_table_classification.

Example C18_case :
  option_map (fun css => (flat_map gone (all_changes css), map t_name (flat_map appeared (all_changes css))))
    (get_diff ex_ord (fun _ => ex_ord) ex_opt ex_from ex_to) = Some (["log"; "orders"], ["sales"; "tags"]).
Proof. vm_compute. reflexivity. Qed.

(** C19. Full statement: if [ch] is in the result, then its table is selected in one of
    the schemas. False: tables of the old schema are not filtered, so a table outside the
    group is reported as dropped, even between identical schemas. *)
Theorem C19_filtered_diff_refuted : exists o s css t,
  distinct_names s /\
  get_diff (fun l => l) (fun _ l => l) o s s = Some css /\
  In (DropTable t) (all_changes css) /\ In t (s_tables s) /\ ~ selected (do_filter o) t.
Proof.
  exact filtered_diff_witness.
Qed.
Print Assumptions C19_filtered_diff_refuted.

(** What holds: a change is about a selected table of the new schema, or about a table of
    the old schema that is not in the new one's selection. *)
Theorem C19_filtered_diff_partial : forall ordT ordC o from to css ch,
  get_diff ordT ordC o from to = Some css ->
  iteration_order ordT -> (forall i, iteration_order (ordC i)) ->
  In ch (all_changes css) ->
  (exists t, In t (s_tables to) /\ selected (do_filter o) t /\ t_name (dep_table ch) = t_name t) \/
  (In (dep_table ch) (s_tables from) /\
   ~ exists t, In t (s_tables to) /\ selected (do_filter o) t /\ t_name t = t_name (dep_table ch)).
Proof. exact spoken_about. Qed.
Print Assumptions C19_filtered_diff_partial.

Example C19_case :
  option_map (fun css => map (fun ch => t_name (dep_table ch)) (all_changes css))
    (get_diff ex_ord (fun _ => ex_ord) (mkDiffOption (get_table_filter "a") "" "" false) ex_from ex_to)
  = Some ["users"; "users"; "users"; "users"; "log"; "orders"; "tags"].
Proof. vm_compute. reflexivity. Qed.

(** C20. Full statement: for t in [to], old in [from] with the same name, every column of t
    that is not in old and not the target of a rename has an AddColumn change. False: no
    AddColumn is ever part of a result. *)
Theorem C20_added_columns_refuted :
  (forall ordT ordC o from to css t c,
    get_diff ordT ordC o from to = Some css ->
    iteration_order ordT -> (forall i, iteration_order (ordC i)) ->
    ~ In (AddColumn t c) (all_changes css)) /\
  exists s1 s2, distinct_names s1 /\ distinct_names s2 /\
    (exists t1 t2 c, s_tables s1 = [t1] /\ s_tables s2 = [t2] /\ t_name t1 = t_name t2 /\
       t_cols t2 = (t_cols t1 ++ [c])%list) /\
    get_diff (fun l => l) (fun _ l => l) (mkDiffOption None "" "" true) s1 s2 = Some [].
Proof. exact added_columns_witness. Qed.
Print Assumptions C20_added_columns_refuted.

(** What holds: the columns that disappear are each reported once, as dropped or as the
    source of a rename, and a rename goes to a new column with the same attributes. *)
Theorem C20_removed_columns_partial : forall ordT ordC opt from to css t old,
  get_diff ordT ordC opt from to = Some css ->
  iteration_order ordT -> (forall i, iteration_order (ordC i)) ->
  distinct_names from -> distinct_names to ->
  In t (s_tables to) -> selected (do_filter opt) t -> In old (s_tables from) -> t_name old = t_name t ->
  NoDup (flat_map (gone_columns (t_name t)) (all_changes css)) /\
  (forall k, In k (flat_map (gone_columns (t_name t)) (all_changes css)) <->
     In k (map c_name (t_cols old)) /\ ~ In k (map c_name (t_cols t))) /\
  (forall t' o c, In (RenameColumn t' o c) (all_changes css) -> t_name t' = t_name t ->
     In o (t_cols old) /\ ~ In (c_name o) (map c_name (t_cols t)) /\
     In c (t_cols t) /\ ~ In (c_name c) (map c_name (t_cols old)) /\ same_attributes (do_comments opt) c o).
Proof. exact columns_gone. Qed.
Print Assumptions C20_removed_columns_partial.

Example C20_case :
  option_map (fun css => flat_map (gone_columns "users") (all_changes css))
    (get_diff ex_ord (fun _ => ex_ord) ex_opt ex_from
      (mkSchema "" "" "" [mkTable "users" [ex_name "full_name" 20 ""; ex_id; ex_name "x" 1 ""] "people" "" "" []]))
  = Some ["email"; "name"].
Proof. vm_compute. reflexivity. Qed.

(** C21 *)
Theorem C21_attribute_changes : forall ordT ordC opt from to css t old c o,
  get_diff ordT ordC opt from to = Some css ->
  iteration_order ordT -> (forall i, iteration_order (ordC i)) ->
  distinct_names from -> distinct_names to ->
  In t (s_tables to) -> selected (do_filter opt) t -> In old (s_tables from) -> t_name old = t_name t ->
  In c (t_cols t) -> In o (t_cols old) -> c_name c = c_name o ->
  let about_c := filter (attribute_change (t_name t) (c_name c)) (all_changes css) in
  NoDup about_c /\
  (forall ch, In ch about_c <->
     (ch = ChangeColumnType t o c /\ (c_type c <> c_type o \/ c_size c <> c_size o \/ c_scale c <> c_scale o)) \/
     (ch = SetColumnComment t c /\ do_comments opt = true /\ c_desc c <> c_desc o) \/
     (ch = SetNotNullConstraint t c /\ c_notnull c <> c_notnull o) \/
     (ch = SetAutoIncrement t c /\ c_autoinc c <> c_autoinc o) \/
     (ch = SetDefaultValue t c /\ c_default c <> c_default o)).
Proof. exact attribute_changes_exact. Qed.
Print Assumptions C21_attribute_changes.

Example C21_case :
  option_map (fun css => filter (attribute_change "users" "name") (all_changes css))
    (get_diff ex_ord (fun _ => ex_ord) ex_opt ex_from ex_to) =
  Some [ChangeColumnType ex_users2 (ex_name "name" 20 "") (ex_name "name" 30 "x");
        SetDefaultValue ex_users2 (ex_name "name" 30 "x")].
Proof. vm_compute. reflexivity. Qed.

(** C53 *)
Theorem C53_table_changes : forall ordT ordC opt from to css t old,
  get_diff ordT ordC opt from to = Some css ->
  iteration_order ordT -> (forall i, iteration_order (ordC i)) ->
  distinct_names from -> distinct_names to ->
  In t (s_tables to) -> selected (do_filter opt) t -> In old (s_tables from) -> t_name old = t_name t ->
  let about_t := filter (table_change (t_name t)) (all_changes css) in
  NoDup about_t /\
  (forall ch, In ch about_t <->
     (ch = SetTableComment t /\ do_comments opt = true /\ t_desc t <> t_desc old) \/
     (ch = UpdatePrimaryKey old t /\ ~ (forall k, pk_column t k <-> pk_column old k)) \/
     (ch = DropUniqueConstraint (t_name t ++ do_suffix opt) old /\
        ~ (forall k, uq_column t k <-> uq_column old k) /\ exists k, uq_column old k) \/
     (ch = CreateUniqueConstraint (t_name t ++ do_suffix opt) t /\
        ~ (forall k, uq_column t k <-> uq_column old k) /\ exists k, uq_column t k)).
Proof. exact table_changes_exact. Qed.
Print Assumptions C53_table_changes.

Example C53_case :
  option_map (fun css => filter (table_change "users") (all_changes css))
    (get_diff ex_ord (fun _ => ex_ord) ex_opt ex_from ex_to) =
  Some [SetTableComment ex_users2; DropUniqueConstraint "users_uq" ex_users].
Proof. vm_compute. reflexivity. Qed.
