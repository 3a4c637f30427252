(** Databases that change logs bring from version to version (C116) *)
From Coq Require Import String Ascii List NArith Bool.
From Verif.Model Require Import GoString Octopus Liquibase Cli.
From Verif.Spec Require Import CliSpec OptionsSpec EndSpec Database LogReleaseSpec.
From Verif.Proofs Require Import LiquibaseWitnesses CliCases EndCases LogReleases LogReleaseCases.
Import ListNotations.
Local Open Scope string_scope.

(** C116. However many versions there are: the database that the change log of the first one makes, after all the
    change logs of "diff liquibase", is the one that the change log of the last one makes. *)
Theorem C116_partial : forall w fs sv comments first texts last v v' text text', real_world w ->
  log_releases w fs sv comments first texts last ->
  makes w fs v first comments text -> makes w fs v' last comments text' ->
  exists log logs log' start migrated new,
    text = w_yaml w log /\ texts = map (w_yaml w) logs /\ text' = w_yaml w log' /\
    run_log sv log [] = Some start /\ run_logs sv logs start = Some migrated /\ run_log sv log' [] = Some new /\
    same_db comments migrated new.
Proof. exact log_releases_same. Qed.
Print Assumptions C116_partial.

(** three versions: tables are altered, dropped, created and renamed twice, columns renamed, keys and constraints changed *)
Example C116_case : forall sv,
  log_releases sample_world kx_files sv true "1.json" (map show_log [kx_log kx_first kx_second; kx_log kx_second kx_third]) "3.json" /\
  makes sample_world kx_files (kx_make "1.json") "1.json" true (show_log (kx_made kx_first)) /\
  makes sample_world kx_files (kx_make "3.json") "3.json" true (show_log (kx_made kx_third)) /\
  option_map (map (fun b => (b_name b, map d_name (b_cols b), b_pk b, b_uqs b)))
    (match run_log lx_sv (kx_made kx_first) [] with
     | Some q => run_logs lx_sv [kx_log kx_first kx_second; kx_log kx_second kx_third] q
     | None => None
     end) =
  Some [("later", ["id"; "x"], ["id"], []);
        ("u", ["id"; "mail"; "code"; "renamed"; "n"], ["id"], [(Some "u", ["code"; "mail"])]);
        ("fresh", ["a"; "b"; "p"; "q"; "r"], ["a"], [(Some "fresh", ["p"; "q"; "r"])])].
Proof. exact log_releases_case. Qed.

(** With exactly one unique column the change log fails or leaves another database, whatever the server does: the
    constraint that was made without a name stays on the old column. *)
Theorem C116_lone_refuted : forall sv, exists log diff log' start new,
  run sample_world kx_lone GenerateLiquibase (kx_make "1.json") = ([("o", show_log log)], Done) /\
  run sample_world kx_lone DiffLiquibase (kx_values "1.json" "2.json") = ([("o", show_log diff)], Done) /\
  run sample_world kx_lone GenerateLiquibase (kx_make "2.json") = ([("o", show_log log')], Done) /\
  log_follows (w_float_ok sample_world) sv true (s_tables (ex_sorted lx_from3)) (s_tables (ex_sorted lx_to3)) /\
  run_log sv log [] = Some start /\ run_log sv log' [] = Some new /\
  forall migrated, run_log sv diff start = Some migrated -> ~ same_db true migrated new.
Proof. exact log_releases_differ. Qed.
Print Assumptions C116_lone_refuted.

(** A schema has one database. *)
Theorem C116_one_database : forall fk comments suffix ts s s', is_database (has_table fk comments suffix) ts s ->
  is_database (has_table fk comments suffix) ts s' -> same_db comments s s'.
Proof. exact database_one. Qed.
Print Assumptions C116_one_database.
