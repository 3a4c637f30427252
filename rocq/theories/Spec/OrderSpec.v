(** What Go leaves open, the order in which maps are iterated and in which equal elements are sorted, should not show (C93) *)
From Coq Require Import String List NArith.
From Verif.Model Require Import GoString Util Octopus Gorm Cli.
From Verif.Spec Require Import OctopusSpec CliSpec GormSpec DiffSpec OptionsSpec.
Import ListNotations.
Local Open Scope string_scope.

(** the same libraries; sorting and the order of iteration may differ *)
Definition same_libraries (w w' : world) : Prop :=
  w_camel w = w_camel w' /\ w_lower_camel w = w_lower_camel w' /\ w_snake w = w_snake w' /\ w_plural w = w_plural w' /\
  w_join w = w_join w' /\ w_sql w = w_sql w' /\ w_open_xlsx w = w_open_xlsx w' /\ w_save_xlsx w = w_save_xlsx w' /\
  w_sheet_ok w = w_sheet_ok w' /\ w_yaml w = w_yaml w' /\ w_float_ok w = w_float_ok w'.

Definition at_most_one {A} (P : A -> Prop) (l : list A) : Prop :=
  forall i j x y, nth_error l i = Some x -> nth_error l j = Some y -> P x -> P y -> i = j.

(** a new table that has the columns of one that is gone *)
Definition table_renames (f : option (table -> bool)) (from to : schema) (t : table) : Prop :=
  selected f t /\ ~ In (t_name t) (map t_name (s_tables from)) /\
  exists old, In old (s_tables from) /\ t_cols t = t_cols old /\
    ~ exists u, In u (s_tables to) /\ selected f u /\ t_name u = t_name old.

(** a new column that is like one that is gone *)
Definition column_renames (old t : table) (c : column) : Prop :=
  ~ In (c_name c) (map c_name (t_cols old)) /\
  exists o, In o (t_cols old) /\ ~ In (c_name o) (map c_name (t_cols t)) /\ same_attributes false c o.

Definition columns_renamed_once (f : option (table -> bool)) (from to : schema) : Prop :=
  forall t old, In t (s_tables to) -> selected f t -> In old (s_tables from) -> t_name old = t_name t ->
    at_most_one (column_renames old t) (t_cols t).
Definition few_renames (f : option (table -> bool)) (from to : schema) : Prop :=
  at_most_one (table_renames f from to) (s_tables to) /\ columns_renamed_once f from to.

(** The runs in which the order cannot show: the tables of each schema differ in group or name; at most one model
    can be embedded in each table; at most one table, and one column of each table, has a new name. The report
    lists its changes by table, there only the columns of a table matter. *)
Definition order_free (w : world) (fs : files) (c : command) (v : values) : Prop :=
  let filter := get_table_filter (given v "groups") in
  (forall name s, In name [given v "input"; given v "from"; given v "to"] -> load_file w fs name = Loaded s ->
     distinct_table_keys s) /\
  (In c [ImportMysql; ImportOjson; ImportStaruml; ImportXlsx] -> forall name text fs' s,
     In (name, text) (fst (run w fs c v)) -> fs' "x.json" = Some text -> load_file w fs' "x.json" = Loaded s ->
     distinct_table_keys s) /\
  (c = GenerateGorm -> forall s t, load_file w fs (given v "input") = Loaded s -> In t (s_tables s) ->
     selected filter t -> one_fits (embed_models default_models (given v "embed")) t) /\
  (In c [DiffFlyway; DiffLiquibase; DiffMd] -> forall from to,
     load_file w fs (given v "from") = Loaded from -> load_file w fs (given v "to") = Loaded to ->
     few_renames filter from to \/
     c = DiffMd /\ columns_renamed_once filter from to /\ NoDup (map t_name (s_tables to))).

(** two runs of the command that differ only in the order in which maps are iterated over may end differently *)
Definition order_shows (c : command) : Prop :=
  exists w w' fs v, real_world w /\ real_world w' /\ same_libraries w w' /\ w_sort w = w_sort w' /\ w_sort_v1 w = w_sort_v1 w' /\
    run w fs c v <> run w' fs c v.
