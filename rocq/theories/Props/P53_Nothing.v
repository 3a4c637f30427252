(** Comparing with an empty schema (C130) *)
From Coq Require Import String Ascii List NArith Bool.
From Verif.Model Require Import GoString Util Octopus Common Mysql Cli.
From Verif.Spec Require Import DiffSpec OptionsSpec NothingSpec.
From Verif.Proofs Require Import CliCases EndCases NothingProofs.
Import ListNotations.
Local Open Scope string_scope.

(** C130. The Liquibase change log from an empty schema to another one is the change log generated for the other one,
    with the same values of the options that both commands have; *)
Theorem C130_log : forall w fs v v' nf nt from, iteration_order (w_ord_tables w) ->
  v "from" = Some nf -> v "to" = Some nt -> v' "input" = Some nt -> v "output" <> None ->
  same_value v v' "output" -> same_value v v' "groups" -> same_value v v' "comments" ->
  left_out v "author" -> left_out v' "uniqueNameSuffix" ->
  load_file w fs nf = Loaded from -> s_tables from = [] ->
  run w fs DiffLiquibase v = run w fs GenerateLiquibase v'.
Proof. exact log_from_nothing. Qed.
Print Assumptions C130_log.

(** the Flyway script consists of the lines of the exported DDL, with empty lines between the statements. *)
Theorem C130_script : forall w fs v v' nf nt from to, iteration_order (w_ord_tables w) ->
  v "from" = Some nf -> v "to" = Some nt -> v' "input" = Some nt -> v "output" <> None ->
  same_value v v' "output" -> same_value v v' "groups" -> same_value v v' "uniqueNameSuffix" ->
  load_file w fs nf = Loaded from -> s_tables from = [] -> load_file w fs nt = Loaded to ->
  exists out text text', run w fs DiffFlyway v = ([(out, text)], Done) /\ run w fs ExportMysql v' = ([(out, text')], Done) /\
    written_lines text = written_lines text'.
Proof. exact script_from_nothing. Qed.
Print Assumptions C130_script.

Definition empty_schema : schema := mkSchema "you" "old" "0" [].
Definition full_schema : schema :=
  mkSchema "me" "store" "1"
    [mkTable "a" [mkCol "id" "int64" "" 0 0 true true false true "" "" [] None;
                  mkCol "name" "varchar" "words" 40 0 true false true false "" "" [] None] "" "g" "" [];
     mkTable "c" [mkCol "x" "int64" "" 0 0 true true false false "" "" [] None;
                  mkCol "y" "int64" "" 0 0 true true false false "" "" [] None] "" "g" "" [];
     mkTable "b" [mkCol "id" "int64" "" 0 0 true true false false "" "" [] None] "" "h" "" []].
Definition diff_values : values :=
  option_values [("from", "a.json"); ("to", "b.json"); ("output", "o"); ("groups", "g"); ("uniqueNameSuffix", "_uq")].
Definition whole_values : values :=
  option_values [("input", "b.json"); ("output", "o"); ("groups", "g"); ("uniqueNameSuffix", "_uq")].
Definition log_values : values := option_values [("from", "a.json"); ("to", "b.json"); ("output", "o"); ("groups", "g"); ("comments", "true")].
Definition gen_values : values := option_values [("input", "b.json"); ("output", "o"); ("groups", "g"); ("comments", "true")].
Example C130_script_case :
  load_file end_world (ex_files empty_schema full_schema) "a.json" = Loaded empty_schema /\
  load_file end_world (ex_files empty_schema full_schema) "b.json" = Loaded full_schema /\
  text_written (run end_world (ex_files empty_schema full_schema) ExportMysql whole_values) =
    String.concat newline ["CREATE TABLE IF NOT EXISTS a ("; "  id bigint NOT NULL AUTO_INCREMENT,";
      "  name varchar(40) NOT NULL COMMENT 'words',"; "  PRIMARY KEY (`id`),"; "  UNIQUE KEY `a_uq` (`name`)"; ");";
      "CREATE TABLE IF NOT EXISTS c ("; "  x bigint NOT NULL,"; "  y bigint NOT NULL,"; "  PRIMARY KEY (`x`, `y`)"; ");"; ""] /\
  text_written (run end_world (ex_files empty_schema full_schema) DiffFlyway diff_values) =
    String.concat newline ["CREATE TABLE IF NOT EXISTS a ("; "  id bigint NOT NULL AUTO_INCREMENT,";
      "  name varchar(40) NOT NULL COMMENT 'words',"; "  PRIMARY KEY (`id`),"; "  UNIQUE KEY `a_uq` (`name`)"; ");"; ""; "";
      "CREATE TABLE IF NOT EXISTS c ("; "  x bigint NOT NULL,"; "  y bigint NOT NULL,"; "  PRIMARY KEY (`x`, `y`)"; ");"; ""; ""; ""].
Proof. refine (conj _ (conj _ (conj _ _))); vm_compute; reflexivity. Qed.
Example C130_log_case :
  left_out log_values "author" /\ left_out gen_values "uniqueNameSuffix" /\ same_value log_values gen_values "comments" /\
  snd (run end_world (ex_files empty_schema full_schema) GenerateLiquibase gen_values) = Done /\
  run end_world (ex_files empty_schema full_schema) GenerateLiquibase gen_values <>
    run end_world (ex_files empty_schema full_schema) GenerateLiquibase whole_values.
Proof.
  refine (conj (or_introl eq_refl) (conj (or_introl eq_refl) (conj eq_refl (conj _ _)))); vm_compute; [ reflexivity | discriminate ].
Qed.
