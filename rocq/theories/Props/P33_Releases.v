(** Databases brought from version to version (C108) *)
From Coq Require Import String Ascii List NArith ZArith Bool.
From Verif.Model Require Import GoString Octopus Mysql Cli.
From Verif.Spec Require Import MysqlGrammar MysqlSpec FlywaySpec ServerSpec CliSpec OptionsSpec EndSpec ReleaseSpec.
From Verif.Proofs Require Import FlywayFacts ServerCases CliCases EndCases Releases.
Import ListNotations.
Local Open Scope string_scope.

(** C108. However many versions there are: the database that the DDL of the first one makes, after all the
    scripts, is the one that the DDL of the last one makes. *)
Theorem C108_releases_partial : forall w fs reserved suffix first scripts last v v', real_world w ->
  releases w fs reserved suffix first scripts last -> exports v first suffix -> exports v' last suffix ->
  exists ddl ddl' start migrated new,
    run w fs ExportMysql v = ([(given v "output", ddl)], Done) /\ run_ddl reserved ddl = Some start /\
    run_scripts reserved start scripts = Some migrated /\
    run w fs ExportMysql v' = ([(given v' "output", ddl')], Done) /\ run_ddl reserved ddl' = Some new /\
    same_database migrated new.
Proof. exact releases_same. Qed.
Print Assumptions C108_releases_partial.

(** three versions: tables are altered, dropped, created and renamed twice *)
Example C108_case :
  releases sample_world rx_files fx_reserved "_uq" "1.json" rx_scripts "3.json" /\
  exports (rx_export "1.json") "1.json" "_uq" /\ exports (rx_export "3.json") "3.json" "_uq" /\
  option_map (map (fun b => (q_table b, q_pk b, map q_notnull (q_cols b), map q_autoinc (q_cols b))))
    (match run_ddl fx_reserved (text_written (run sample_world rx_files ExportMysql (rx_export "1.json"))) with
     | Some q => run_scripts fx_reserved q rx_scripts
     | None => None
     end) =
  Some [("again", ["id"], [true; false], [true; false]); ("item", ["id"], [true; true; false], [true; false; false]);
        ("pair", ["a"; "b"], [true; true], [false; false])].
Proof. exact releases_case. Qed.

(** Without these conditions the databases may differ, and no script fails: here a column is added. *)
Theorem C108_releases_refuted : exists script start migrated new,
  run sample_world rx_added DiffFlyway (rx_values "1.json" "2.json") = ([("o", script)], Done) /\
  run_ddl fx_reserved (text_written (run sample_world rx_added ExportMysql (rx_export "1.json"))) = Some start /\
  run_scripts fx_reserved start [script] = Some migrated /\
  run_ddl fx_reserved (text_written (run sample_world rx_added ExportMysql (rx_export "2.json"))) = Some new /\
  ~ same_database migrated new.
Proof. exact releases_differ. Qed.
Print Assumptions C108_releases_refuted.

(** A schema describes one database. *)
Theorem C108_one_database : forall suffix ts s s', described suffix ts s -> described suffix ts s' -> same_database s s'.
Proof. exact described_same. Qed.
Print Assumptions C108_one_database.
