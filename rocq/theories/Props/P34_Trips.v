(** Schemas that go through MySQL DDL again (C109) *)
From Coq Require Import String Ascii List NArith ZArith Bool.
From Verif.Model Require Import GoString Octopus Common Mysql Cli.
From Verif.Spec Require Import Text OctopusSpec JsonSpec MysqlGrammar MysqlSpec CliSpec OptionsSpec GroupSpec EndSpec TripSpec TripEndSpec.
From Verif.Proofs Require Import MysqlWitnesses CliCases EndCases MysqlTrips MysqlTripFiles MysqlTripCases MysqlTripEnds.
Import ListNotations.
Local Open Scope string_scope.

(** C109. Whatever the first import makes of the exported DDL, exporting and importing that gives it again. *)
Theorem C109_second_trip_partial : forall reserved f suffix suffix' s excludes author version,
  Forall (plain_table reserved suffix) (filter (passes f) (s_tables s)) -> ~ char_in "`" suffix' ->
  Forall sized_table (filter (passes f) (s_tables s)) ->
  exists stmts s1 stmts', read_sql reserved (my_export f suffix s) = Some stmts /\
    import_sql excludes author version stmts = Ok s1 /\
    read_sql reserved (my_export None suffix' s1) = Some stmts' /\ import_sql [] author version stmts' = Ok s1.
Proof. exact second_trip. Qed.
Print Assumptions C109_second_trip_partial.

(** the first trip changes five columns of this table, the second one none *)
Example C109_second_trip_case :
  Forall (plain_table mx_reserved "_uq") (filter (passes None) (s_tables tx_schema)) /\
  Forall sized_table (filter (passes None) (s_tables tx_schema)) /\
  s_tables tx_back =
    [mkTable "item" [tx_col "id" "int64" 0 true true true ""; tx_col "flag" "boolean" 0 true false false "7";
                     tx_col "number" "double" 0 false false false ""; tx_col "at" "datetime" 0 false false false "fn::CURRENT_TIMESTAMP";
                     mkCol "owner" "int32" "who" 0 0 false false false false "" "" [] None] "" "" "" []] /\
  import_sql [] "me" "1" (tx_read tx_back) = Ok tx_back.
Proof. exact trip_case. Qed.

(** With the commands: the second import writes, byte for byte, the file of the first. *)
Theorem C109_files_partial : forall w reserved fs v s ts,
  sorts_tables (w_sort w) -> reads_sql w reserved ->
  load_file w fs (given v "input") = Loaded s -> valid_schema s ->
  v "input" <> None -> v "output" <> None ->
  picked (chosen (given v "groups")) (s_tables s) ts ->
  Forall (plain_table reserved (given v "uniqueNameSuffix")) ts ->
  NoDup (map t_name ts) ->
  (forall t, In t ts -> NoDup (map c_name (t_cols t))) ->
  exists sql, run w fs ExportMysql v = ([(given v "output", sql)], Done) /\
  forall fs1 v1, fs1 (given v1 "input") = Some sql -> v1 "input" <> None -> v1 "output" <> None ->
  octopus_name (given v1 "output") -> utf8 (given v1 "author") -> utf8 (given v1 "version") ->
  exists file, run w fs1 ImportMysql v1 = ([(given v1 "output", file)], Done) /\
  forall fs2 v2, fs2 (given v2 "input") = Some file -> octopus_name (given v2 "input") -> v2 "input" <> None -> v2 "output" <> None ->
  given v2 "groups" = "" -> ~ char_in "`" (given v2 "uniqueNameSuffix") ->
  exists sql', run w fs2 ExportMysql v2 = ([(given v2 "output", sql')], Done) /\
  forall fs3 v3, fs3 (given v3 "input") = Some sql' -> v3 "input" <> None -> v3 "output" <> None ->
  given v3 "author" = given v1 "author" -> given v3 "version" = given v1 "version" -> given v3 "excludes" = "" ->
  run w fs3 ImportMysql v3 = ([(given v3 "output", file)], Done).
Proof. exact trips_files. Qed.
Print Assumptions C109_files_partial.

(** the identifier of the second table counts up in the first file only *)
Example C109_files_case :
  load_file end_world (fun _ => Some (ex_text tx_both)) "a.json" = Loaded tx_both /\ valid_schema tx_both /\
  picked (chosen (given tx_export "groups")) (s_tables tx_both) [tx_table; tx_small] /\
  Forall (plain_table mx_reserved "_uq") [tx_table; tx_small] /\ NoDup (map t_name [tx_table; tx_small]) /\
  (forall t, In t [tx_table; tx_small] -> NoDup (map c_name (t_cols t))) /\
  load_file end_world
    (fun _ => Some (text_written (run end_world (fun _ => Some (text_written (run end_world (fun _ => Some (ex_text tx_both)) ExportMysql tx_export)))
                                    ImportMysql tx_import))) "b.json" =
    Loaded (mkSchema "you" "" "" (s_tables tx_back ++ [mkTable "small" [tx_col "id" "boolean" 0 true true false ""] "" "" "" []])).
Proof. exact trips_case. Qed.

(** Without the conditions no number of trips is enough: however many a schema has had, there is one that the next trip changes,
    as descriptions are written without escapes and read with them. *)
Theorem C109_settles_refuted : forall k, exists s s' s'',
  valid_schema s /\ trips mx_reserved "_uq" k s s' /\ one_trip mx_reserved "_uq" s' s'' /\ s'' <> s'.
Proof. exact no_trip_is_last. Qed.
Print Assumptions C109_settles_refuted.

(** four backslashes, then two, then one *)
Example C109_settles_case :
  valid_schema (sl_schema (slashes 4)) /\ one_trip mx_reserved "_uq" (sl_schema (slashes 4)) (sl_schema (slashes 2)) /\
  one_trip mx_reserved "_uq" (sl_schema (slashes 2)) (sl_schema (slashes 1)).
Proof. exact two_trips_case. Qed.
