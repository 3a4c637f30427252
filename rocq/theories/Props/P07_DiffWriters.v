(** Properties of the Flyway and Markdown writers (C22-C24, C50, C57, C58).
    A script is read with MySQL's syntax (Spec/FlywaySpec.v); [sql_text] is the text the writer
    prints for one change. *)
From Coq Require Import String Ascii List NArith ZArith Bool Sorting.Permutation.
From Verif.Model Require Import GoString Util Octopus DiffCore Diff Mysql DiffWriters.
From Verif.Spec Require Import Text Order DiffSpec MysqlGrammar MysqlSpec FlywaySpec MarkdownSpec.
From Verif.Proofs Require Import MysqlWitnesses FlywayProofs MarkdownProofs FlywayFacts.
Import ListNotations.
Local Open Scope string_scope.

(** C22. Full statement: the SQL turns auto-increment on when the new column has it and off when
    it does not. The first half holds; the second never does: the statement for turning it off
    turns it on and makes the column a primary key. *)
Theorem C22_on_partial : forall reserved suffix t c,
  plain_ident (alter_reserved reserved) (t_name t) -> plain_column (alter_reserved reserved) c -> c_autoinc c = true ->
  exists cd, read_script reserved (sql_text suffix (SetAutoIncrement t c)) = Some [MModify (t_name t) cd] /\
    column_means c cd /\ In OAutoIncrement (cd_options cd).
Proof. exact autoinc_on. Qed.
Print Assumptions C22_on_partial.

Theorem C22_off_refuted : forall reserved suffix t c,
  plain_ident (alter_reserved reserved) (t_name t) -> plain_column (alter_reserved reserved) c -> c_autoinc c = false ->
  exists cd, read_script reserved (sql_text suffix (SetAutoIncrement t c)) = Some [MModify (t_name t) cd] /\
    cd_name cd = c_name c /\ In OAutoIncrement (cd_options cd) /\ In OPrimaryKey (cd_options cd) /\ ~ column_means c cd.
Proof. exact autoinc_off. Qed.
Print Assumptions C22_off_refuted.

Example C22_case : forall a b,
  plain_ident (alter_reserved fx_reserved) (t_name fx_old) /\ plain_column (alter_reserved fx_reserved) (fx_id a b).
Proof. exact (fun a b => conj fx_item_name (fx_id_plain a b)). Qed.
Example C22_case_off : sql_text "" (SetAutoIncrement fx_old (fx_id false false)) =
  "ALTER TABLE item MODIFY COLUMN id bigint AUTO_INCREMENT PRIMARY KEY;" ++ newline.
Proof. reflexivity. Qed.

(** C23. Full statement: every change of a diff result contributes at least one statement, in
    order, with one blank line after each change set. Only the layout and order hold; exactly the
    [silent] kinds of change (8 of 15) give no statement, so a diff can have an empty script. *)
Theorem C23_silent_refuted : exists from to css ch,
  get_diff fx_ord (fun _ => fx_ord) fx_o from to = Some css /\ In ch (all_changes css) /\
  read_script fx_reserved (flyway_write (do_suffix fx_o) css) = Some [].
Proof. exact silent_witness. Qed.
Print Assumptions C23_silent_refuted.

Theorem C23_which_partial : forall suffix ch, to_sql suffix ch = [] <-> silent ch.
Proof. exact silent_iff. Qed.
Print Assumptions C23_which_partial.

Theorem C23_layout_partial : forall suffix css,
  flyway_write suffix css =
  write_lines (flat_map (fun cs => flat_map (to_sql suffix) (cs_changes cs) ++ [""])%list css).
Proof. exact flyway_layout. Qed.
Print Assumptions C23_layout_partial.

(** the script of any diff between plain schemas is valid and says what [sql_of] lists, in order *)
Theorem C23_script_partial : forall reserved ordT ordC o from to css,
  get_diff ordT ordC o from to = Some css ->
  iteration_order ordT -> (forall i, iteration_order (ordC i)) ->
  Forall (plain_table (alter_reserved reserved) (do_suffix o)) (s_tables to) ->
  Forall (fun t => plain_ident (alter_reserved reserved) (t_name t)) (s_tables from) ->
  exists ls, Forall2 (sql_of (do_suffix o)) (all_changes css) ls /\
    read_script reserved (flyway_write (do_suffix o) css) = Some (concat ls).
Proof. exact diff_script. Qed.
Print Assumptions C23_script_partial.

Example C23_case :
  get_diff fx_ord (fun _ => fx_ord) fx_o fx_from fx_to = Some fx_css /\
  Forall (plain_table (alter_reserved fx_reserved) (do_suffix fx_o)) (s_tables fx_to) /\
  Forall (fun t => plain_ident (alter_reserved fx_reserved) (t_name t)) (s_tables fx_from) /\
  map kind_of (all_changes fx_css) = [KAutoOn; KNotNull; KPk; KDrop; KCreate] /\
  option_map (map (fun m => match m with
    | MCreate _ => "create" | MDropTable n => "drop " ++ n | MRename a b => "rename"
    | MAddColumn t cd => "add " ++ cd_name cd | MModify t cd => "modify " ++ cd_name cd
    | MDropPrimaryKey t => "drop key" | MAddPrimaryKey t ks => "add key " ++ join " " ks end))
    (read_script fx_reserved (flyway_write "_uq" fx_css)) =
  Some ["modify id"; "modify code"; "drop key"; "add key id"; "drop gone"; "create"].
Proof. exact (conj eq_refl (conj fx_to_plain (conj fx_from_names (conj eq_refl eq_refl)))). Qed.

(** C24 *)
Theorem C24_report : forall ord from to css, iteration_order ord ->
  exists names, strictly_increasing names /\
    (forall n, In n names <-> exists ch, In ch (all_changes css) /\ t_name (dep_table ch) = n) /\
    Permutation (flat_map (fun n => filter (under n) (all_changes css)) names) (all_changes css) /\
    md_lines ord from to css =
      (report_head (s_version from) (s_version to) ++ flat_map (report_section md_line (all_changes css)) names)%list.
Proof. exact report. Qed.
Print Assumptions C24_report.

(** the line of a change tells what kind of change it is *)
Theorem C24_line_kind : forall a b, md_line a = md_line b -> kind_of a = kind_of b.
Proof. exact md_line_kind. Qed.
Print Assumptions C24_line_kind.

(** and shows the names and values involved *)
Theorem C24_line_shows : forall ch x, In x (shows ch) -> occurs ("`" ++ x ++ "`") (md_line ch).
Proof. exact md_line_shows. Qed.
Print Assumptions C24_line_shows.

Example C24_case : md_lines (@rev string) fx_from fx_to fx_css =
  ["# DB Schema changes"; ""; "* from: `1`"; "* to: `2`";
   ""; "## fresh"; "* create table"; ""; "## gone"; "* drop table";
   ""; "## item"; "* set auto incremental: `id`"; "* set not null: `code`"; "* update PK: [] " ++ arrow ++ " [id]"].
Proof. reflexivity. Qed.

(** C50. Full statement: DROP PRIMARY KEY only if the old table has a primary key, and ADD PRIMARY
    KEY lists exactly the new key. The first half is false: it is always emitted. *)
Theorem C50_drop_refuted : exists from to css t,
  get_diff fx_ord (fun _ => fx_ord) fx_o from to = Some css /\
  In t (s_tables from) /\ (forall k, ~ pk_column t k) /\
  exists l, read_script fx_reserved (flyway_write (do_suffix fx_o) css) = Some l /\ In (MDropPrimaryKey (t_name t)) l.
Proof. exact drop_key_witness. Qed.
Print Assumptions C50_drop_refuted.

Theorem C50_keys_partial : forall reserved suffix old nw,
  plain_ident (alter_reserved reserved) (t_name nw) ->
  Forall (fun c => plain_ident (alter_reserved reserved) (c_name c)) (t_cols nw) ->
  exists l, read_script reserved (sql_text suffix (UpdatePrimaryKey old nw)) = Some l /\ In (MDropPrimaryKey (t_name nw)) l /\
    (forall t ks, In (MAddPrimaryKey t ks) l -> t = t_name nw /\ key_columns nw ks) /\
    ((exists ks, In (MAddPrimaryKey (t_name nw) ks) l) <-> exists k, pk_column nw k).
Proof. exact key_text. Qed.
Print Assumptions C50_keys_partial.

Example C50_case : sql_text "" (UpdatePrimaryKey fx_old (mkTable "item"
    [mkCol "b" "int32" "" 0 0 true true false false "" "" [] None; fx_code "char" true; fx_id true false] "" "" "" [])) =
  "ALTER TABLE item DROP PRIMARY KEY;" ++ newline ++ "ALTER TABLE item ADD PRIMARY KEY (b,id);" ++ newline.
Proof. reflexivity. Qed.

(** C57. Full statement: the SQL for an added column is an ALTER TABLE that adds it. False for
    every table and column: MySQL has no MODIFY ADD. *)
Theorem C57_add_refuted : forall reserved suffix t c,
  plain_ident (alter_reserved reserved) (t_name t) -> plain_column (alter_reserved reserved) c ->
  read_script reserved (sql_text suffix (AddColumn t c)) = None.
Proof. exact add_column_invalid. Qed.
Print Assumptions C57_add_refuted.

Example C57_case : sql_text "" (AddColumn fx_old mx_price) =
  "ALTER TABLE item MODIFY ADD price decimal(10,2) DEFAULT 1.50;" ++ newline /\
  plain_column (alter_reserved fx_reserved) mx_price.
Proof. exact (conj eq_refl fx_price_plain). Qed.
Example C57_valid : read_script fx_reserved "ALTER TABLE item ADD price decimal(10,2) DEFAULT 1.50;" <> None.
Proof. vm_compute. discriminate. Qed.

(** C58. Full statement: the statement for a NOT NULL change leaves the rest of the column as the
    new schema has it ([column_means]). True exactly when there is nothing to lose. *)
Theorem C58_not_null_partial : forall reserved suffix t c,
  plain_ident (alter_reserved reserved) (t_name t) -> plain_column (alter_reserved reserved) c ->
  exists cd, read_script reserved (sql_text suffix (SetNotNullConstraint t c)) = Some [MModify (t_name t) cd] /\
    cd_name cd = c_name c /\ sql_type c = Some (cd_type cd) /\ cd_options cd = (if c_notnull c then [ONotNull] else []) /\
    (column_means c cd <-> c_autoinc c = false /\ c_default c = "" /\ c_onupdate c = "" /\ c_desc c = "").
Proof. exact not_null_text. Qed.
Print Assumptions C58_not_null_partial.

Example C58_case : sql_text "" (SetNotNullConstraint fx_new (fx_code "char" true)) =
  "ALTER TABLE item MODIFY code char(20) NOT NULL;" ++ newline /\ c_desc (fx_code "char" true) = "the code".
Proof. exact (conj eq_refl eq_refl). Qed.
