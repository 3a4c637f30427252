(** Properties of /repo/format/mysql/{exporter,importer}.go.

    [reserved] says which (lower case) words MySQL reserves, beyond the ones the grammar of
    Spec/MysqlGrammar.v uses itself. *)
From Coq Require Import String Ascii List NArith ZArith Bool.
From Verif.Model Require Import GoString Util Octopus Common Mysql.
From Verif.Spec Require Import Text MysqlGrammar MysqlSpec MysqlImportSpec.
From Verif.Proofs Require Import MysqlRead MysqlFacts MysqlTables MysqlWitnesses.
Import ListNotations.
Local Open Scope string_scope.

(** C29: for every table *)
Theorem C29_ddl_layout : forall suffix t, exists cols keys, layout suffix t cols keys /\
  export_table suffix t = ddl_text (t_name t) (cols ++ keys)%list.
Proof. exact export_layout. Qed.
Print Assumptions C29_ddl_layout.

Example C29_ddl_layout_case : export_table "_uq" mx_user = ddl_text "user"
  ["id bigint NOT NULL AUTO_INCREMENT";
   "name varchar(40) NOT NULL DEFAULT 'it, is; (x)' COMMENT 'login name'";
   "price decimal(10,2) DEFAULT 1.50";
   "kind enum('a', 'b') COMMENT 'a or b'";
   "created_at datetime NOT NULL DEFAULT CURRENT_TIMESTAMP() ON UPDATE CURRENT_TIMESTAMP()";
   "PRIMARY KEY (`id`)"; "UNIQUE KEY `user_uq` (`name`, `kind`)"; "INDEX `by_price` (`price`, `kind`)"].
Proof. vm_compute. reflexivity. Qed.

(** C56: a MySQL reader finds exactly the tables, for names, comments and values
    that need no quoting *)
Theorem C56_ddl_reads_back_partial : forall reserved f suffix s,
  Forall (plain_table reserved suffix) (filter (passes f) (s_tables s)) ->
  exists stmts, read_sql reserved (my_export f suffix s) = Some stmts /\
    Forall2 (table_means suffix) (filter (passes f) (s_tables s)) stmts.
Proof. exact export_reads. Qed.
Print Assumptions C56_ddl_reads_back_partial.

Example C56_ddl_reads_back_case :
  Forall (plain_table mx_reserved "_uq") (filter (passes None) (s_tables mx_schema)) /\
  option_map (@length my_stmt) (read_sql mx_reserved (my_export None "_uq" mx_schema)) = Some 2.
Proof. split; [exact mx_plain|vm_compute; reflexivity]. Qed.

(** and without that condition it does not: an apostrophe in a comment, a space in a name or a
    table without columns *)
Theorem C56_ddl_reads_back_refuted :
  exists t1 t2 t3, Forall (fun t => read_sql (fun _ => false) (export_table "" t) = None) [t1; t2; t3] /\
    Forall (fun c => In (c_type c) col_types) (t_cols t1 ++ t_cols t2) /\
    map c_desc (t_cols t1) = ["it's"] /\ map c_name (t_cols t2) = ["my id"] /\ t_cols t3 = [].
Proof.
  exists (mkTable "t" [mx_col "" "it's"] "" "" "" []),
         (mkTable "t" [mkCol "my id" "int32" "" 0 0 false false false false "" "" [] None] "" "" "" []),
         (mkTable "t" [] "" "" "" []).
  repeat split; repeat constructor; vm_compute; tauto.
Qed.
Print Assumptions C56_ddl_reads_back_refuted.

(** C30: exactly these types, sizes, scales and values come back *)
Theorem C30_type_round_trip_partial : forall c, In (c_type c) col_types -> Forall plain_text (c_values c) ->
  (c_size c < 65536)%N -> (c_scale c < 65536)%N ->
  (reimported_type c = Some (c_type c, c_size c, c_scale c, c_values c) <-> type_survives c).
Proof. exact reimport_iff. Qed.
Print Assumptions C30_type_round_trip_partial.

Example C30_type_round_trip_case :
  map reimported_type [mx_ty "varchar" 255 0; mx_ty "decimal" 10 2; mx_ty "boolean" 0 0; mx_kind] =
  [Some ("varchar", 255%N, 0%N, []); Some ("decimal", 10%N, 2%N, []); Some ("boolean", 0%N, 0%N, []);
   Some ("enum", 0%N, 0%N, ["a"; "b"])].
Proof. vm_compute. reflexivity. Qed.

(** but not all: binary loses its length, one-byte integers of width 1 and bits of length 1
    become boolean, and varbinary without a length is not valid *)
Theorem C30_type_round_trip_refuted : exists c1 c2 c3 c4,
  Forall (fun c => In (c_type c) col_types /\ Forall plain_text (c_values c)) [c1; c2; c3; c4] /\
  map c_type [c1; c2; c3; c4] = ["binary"; "int8"; "bit"; "varbinary"] /\
  map reimported_type [c1; c2; c3; c4] =
    [Some ("binary", 0%N, 0%N, []); Some ("boolean", 0%N, 0%N, []); Some ("boolean", 0%N, 0%N, []); None] /\
  map c_size [c1; c2; c3; c4] = [16; 1; 1; 16]%N.
Proof.
  exists (mx_ty "binary" 16 0), (mx_ty "int8" 1 0), (mx_ty "bit" 1 0), (mx_ty "varbinary" 16 0).
  repeat split; repeat constructor; vm_compute; tauto.
Qed.
Print Assumptions C30_type_round_trip_refuted.

(** C31: a default value can look like a comment *)
Theorem C31_ddl_injective_refuted : exists t1 t2, export_table "" t1 = export_table "" t2 /\
  map c_default (t_cols t1) <> map c_default (t_cols t2) /\ map c_desc (t_cols t1) <> map c_desc (t_cols t2).
Proof. exists mx_t1, mx_t2. repeat split; vm_compute; discriminate. Qed.
Print Assumptions C31_ddl_injective_refuted.

Theorem C31_ddl_injective_partial : forall reserved suffix t1 t2,
  plain_table reserved suffix t1 -> plain_table reserved suffix t2 ->
  export_table suffix t1 = export_table suffix t2 ->
  t_name t1 = t_name t2 /\ Forall2 same_column (t_cols t1) (t_cols t2) /\ t_indices t1 = t_indices t2 /\
  map c_name (filter c_pk (t_cols t1)) = map c_name (filter c_pk (t_cols t2)) /\
  map c_name (filter c_uq (t_cols t1)) = map c_name (filter c_uq (t_cols t2)).
Proof. exact export_injective. Qed.
Print Assumptions C31_ddl_injective_partial.

Theorem C31_default_injective_partial : forall c1 c2, c_type c1 = c_type c2 ->
  stable_default c1 -> stable_default c2 ->
  (exists ds, default_means c1 ds /\ default_means c2 ds) -> c_default c1 = c_default c2.
Proof. exact canonical_default. Qed.
Print Assumptions C31_default_injective_partial.

Example C31_ddl_injective_case : plain_table mx_reserved "_uq" mx_user /\ plain_table mx_reserved "_uq" mx_log.
Proof. split; [exact mx_user_plain|exact mx_log_plain]. Qed.

(** C32 *)
Theorem C32_import_structure : forall excludes author version stmts s,
  import_sql excludes author version stmts = Ok s ->
  s_author s = author /\ s_version s = version /\ s_name s = "" /\
  Forall2 imported_table (filter (wanted excludes) stmts) (s_tables s).
Proof. exact import_spec. Qed.
Print Assumptions C32_import_structure.

Example C32_import_structure_case :
  import_sql ["skip"] "me" "1" mx_stmts = Ok (mkSchema "me" "" "1" [
    mkTable "a" [mkCol "x" "int32" "" 0 0 false false true false "fn::RAND" "" [] None;
                 mkCol "y" "int32" "c2" 0 0 true true false false "" "" [] None;
                 mkCol "z" "int32" "" 0 0 true true false true "" "" [] None] "" "" ""
      [mkIdx "i" ["x"; "y"]; mkIdx "j" []];
    mkTable "b" [] "" "" "" []]).
Proof. vm_compute. reflexivity. Qed.

(** C54 *)
Theorem C54_ddl_round_trip_partial : forall reserved f suffix s excludes author version,
  Forall (plain_table reserved suffix) (filter (passes f) (s_tables s)) ->
  Forall (fun t => NoDup (map c_name (t_cols t)) /\ Forall survives (t_cols t)) (filter (passes f) (s_tables s)) ->
  exists stmts, read_sql reserved (my_export f suffix s) = Some stmts /\
    import_sql excludes author version stmts =
    Ok (mkSchema author "" version
      (map table_core (filter (fun t => negb (str_in (t_name t) excludes)) (filter (passes f) (s_tables s))))).
Proof. exact export_import. Qed.
Print Assumptions C54_ddl_round_trip_partial.

Example C54_ddl_round_trip_case :
  Forall (plain_table mx_reserved "_uq") (filter (passes None) (s_tables mx_schema)) /\
  Forall (fun t => NoDup (map c_name (t_cols t)) /\ Forall survives (t_cols t)) (filter (passes None) (s_tables mx_schema)) /\
  option_map (import_sql ["log"] "" "") (read_sql mx_reserved (my_export None "_uq" mx_schema)) =
    Some (Ok (mkSchema "" "" ""
      [mkTable "user" [mx_id; mx_name; mx_price; mx_kind; mx_at] "" "" "" [mkIdx "by_price" ["price"; "kind"]]])).
Proof. split; [exact mx_plain|]. split; [exact mx_survives|]. vm_compute. reflexivity. Qed.

(** what does not come back: an auto-increment column becomes NOT NULL *)
Theorem C54_ddl_round_trip_refuted : exists t stmts s, plain_table (fun _ => false) "" t /\
  read_sql (fun _ => false) (export_table "" t) = Some stmts /\
  import_sql [] "" "" stmts = Ok s /\ s_tables s <> [table_core t].
Proof.
  exists (mkTable "t" [mkCol "n" "int32" "" 0 0 false true false true "" "" [] None] "" "" "" []). do 2 eexists.
  split; [|split; [vm_compute; reflexivity|split; [vm_compute; reflexivity|vm_compute; discriminate]]].
  constructor; [plain_ident_tac|no_char| |constructor].
  split; [discriminate|]. apply Forall_cons; [|apply Forall_nil].
  plain_column_tac; [exists []; now constructor|exists []; now constructor].
Qed.
Print Assumptions C54_ddl_round_trip_refuted.

(** C55: [UNIQUE] written at the column is not seen, whatever else the column says *)
Theorem C55_column_unique_refuted : exists cd,
  In OUniqKey (cd_options cd) /\ c_uq (import_column (ss_new []) (ss_new []) cd) = false.
Proof. exists (mkColDef "n" mx_ft_int [OUniqKey]). split; [now left|vm_compute; reflexivity]. Qed.
Print Assumptions C55_column_unique_refuted.

Theorem C55_column_unique_ignored_partial : forall pk uq cd pre post, cd_options cd = (pre ++ OUniqKey :: post)%list ->
  import_column pk uq cd = import_column pk uq (mkColDef (cd_name cd) (cd_type cd) (pre ++ post)%list).
Proof. exact uniq_option_ignored. Qed.
Print Assumptions C55_column_unique_ignored_partial.
