(** Command lines (C124, C125) *)
From Coq Require Import String Ascii List Bool Permutation.
From Verif.Model Require Import GoString Cli Args.
From Verif.Spec Require Import OptionsSpec ArgsSpec.
From Verif.Proofs Require Import CliCases CliOptions ArgsProofs ArgsCases.
Import ListNotations.
Local Open Scope string_scope.

(** C124. A command line runs a command with certain values exactly if it has the words of the command, followed by
    options with these values in any spelling; options that are not given have the values of the environment... *)
Theorem C124_exact : forall env args c v,
  (exists v', line_request env args = Runs c v' /\ forall n, v' n = v n) <-> asks env args c v.
Proof. exact line_iff. Qed.
Print Assumptions C124_exact.

Theorem C124_runs : forall w fs env args c v, asks env args c v -> run_line w fs env args = run w fs c v.
Proof. exact line_runs. Qed.
Print Assumptions C124_runs.

(** ... and no other command line writes a file... *)
Theorem C124_others : forall w fs env args, (forall c v, ~ asks env args c v) -> ~ completion args -> ~ version_between args ->
  run_line w fs env args = ([], Done) \/ run_line w fs env args = ([], Failed).
Proof. exact line_others. Qed.
Print Assumptions C124_others.

(** ... so the order of the options, their names and the way their values are written do not matter. *)
Theorem C124_order : forall w fs env c es es' a a',
  spelled_all (command_flags c ++ [help]) es a -> spelled_all (command_flags c ++ [help]) es' a' ->
  NoDup (map (fun e => fst (fst e)) es) ->
  Permutation (map (fun e => (fst (fst e), snd e)) es) (map (fun e => (fst (fst e), snd e)) es') ->
  ~ completion (command_words c ++ a) -> ~ completion (command_words c ++ a') ->
  run_line w fs env (command_words c ++ a) = run_line w fs env (command_words c ++ a').
Proof. exact order_free. Qed.
Print Assumptions C124_order.

(** a group from the environment, and an option that is given although the environment has it *)
Example C124_case : asks group_env ["diff"; "md"; "--from"; "a.json"; "-t=b.json"; "--output"; "o.md"; "--comments"] DiffMd md_values /\
  md_values "groups" = Some "g1" /\ md_values "from" = Some "a.json" /\ group_env "OCTOPUS_FROM" = Some "c.json".
Proof. split; [exact asks_case|repeat split]. Qed.

(** no command of these words *)
Example C124_others_case : (forall c v, ~ asks no_env ["export"; "postgres"; "--input"; "a.json"] c v) /\
  ~ completion ["export"; "postgres"; "--input"; "a.json"] /\ ~ version_between ["export"; "postgres"; "--input"; "a.json"].
Proof. exact other_case. Qed.

(** another order, other names, and a value that looks like an option *)
Example C124_order_case :
  let one := ["--from"; "a.json"; "-t=b.json"; "--output"; "o.md"; "--comments"; "-a"; "--x"] in
  let two := ["-c=true"; "-author=--x"; "-o"; "o.md"; "--to"; "b.json"; "-f=a.json"] in
  run_line sample_world sales_files no_env (["diff"; "md"] ++ one) = run_line sample_world sales_files no_env (["diff"; "md"] ++ two) /\
  snd (run_line sample_world sales_files no_env (["diff"; "md"] ++ one)) = Done.
Proof. split; vm_compute; reflexivity. Qed.

(** C125. Every option on a command line counts, or the command ends with an error and writes nothing. This holds for
    an option the command does not have, a switch with a value that is not boolean, an option without a value... *)
Theorem C125_mistakes_partial : forall w fs env c es a bad more, spelled_all (command_flags c ++ [help]) es a ->
  mistake (command_flags c ++ [help]) bad more -> ~ completion (command_words c ++ a ++ bad ++ more) ->
  run_line w fs env (command_words c ++ a ++ bad ++ more) = ([], Failed).
Proof. exact mistakes_fail. Qed.
Print Assumptions C125_mistakes_partial.

(** ... for two names of one option... *)
Theorem C125_names_partial : forall w fs env c es a r left, spelled_all (command_flags c ++ [help]) es a -> ends_with r left ->
  ~ one_name es -> ~ completion (command_words c ++ a ++ r) ->
  run_line w fs env (command_words c ++ a ++ r) = ([], Failed).
Proof. exact two_names_fail. Qed.
Print Assumptions C125_names_partial.

(** ... for a variable of the environment that is not boolean, but is for a switch... *)
Theorem C125_environment_partial : forall w fs env c args, ~ sensible env c -> ~ completion (command_words c ++ args) ->
  run_line w fs env (command_words c ++ args) = ([], Failed).
Proof. exact environment_fail. Qed.
Print Assumptions C125_environment_partial.

(** ... and if nothing but options follows the words of the command. *)
Theorem C125_count_partial : forall env c es a, spelled_all (command_flags c ++ [help]) es a -> one_name es -> off help es ->
  sensible env c -> ~ completion (command_words c ++ a) ->
  exists v, asks env (command_words c ++ a) c v /\ forall f x, In f (command_flags c) -> given f es x -> v (fl_name f) = Some x.
Proof. exact all_count. Qed.
Print Assumptions C125_count_partial.

(** It is false behind an argument that is no option, such as "true" behind a switch: *)
Theorem C125_refuted : exists w fs env c es a stray f n x b,
  spelled_all (command_flags c ++ [help]) es a /\ In f (command_flags c) /\ spelled f n x b /\
  snd (run_line w fs env (command_words c ++ a ++ [stray] ++ b)) = Done /\
  run_line w fs env (command_words c ++ a ++ [stray] ++ b) = run_line w fs env (command_words c ++ a) /\
  run_line w fs env (command_words c ++ a ++ [stray] ++ b) <> run_line w fs env (command_words c ++ a ++ b).
Proof. exact stray_refuted. Qed.
Print Assumptions C125_refuted.

(** everything behind it is ignored, always *)
Theorem C125_ignored_refuted : forall w fs env c es a stray more, spelled_all (command_flags c ++ [help]) es a -> no_option stray ->
  ~ completion (command_words c ++ a) -> ~ completion (command_words c ++ a ++ stray :: more) ->
  run_line w fs env (command_words c ++ a ++ stray :: more) = run_line w fs env (command_words c ++ a).
Proof. exact stray_ignored. Qed.
Print Assumptions C125_ignored_refuted.

(** The switch useUTC of SQLAlchemy, which is documented as a flag to set, takes the next option for its value. *)
Example C125_case :
  mistake (command_flags GenerateSqlalchemy ++ [help]) ["--useUTC"] [] /\
  run_line sample_world sales_files no_env ["generate"; "sqlalchemy"; "--input"; "a.json"; "--output"; "x.py"; "--useUTC"] = ([], Failed) /\
  run_line sample_world sales_files no_env ["generate"; "sqlalchemy"; "--useUTC"; "--input"; "a.json"; "--output"; "x.py"] = ([], Failed) /\
  snd (run_line sample_world sales_files no_env ["generate"; "sqlalchemy"; "--useUTC=1"; "--input"; "a.json"; "--output"; "x.py"]) = Done.
Proof.
  split; [|repeat split; vm_compute; reflexivity].
  apply (no_value _ (str_flag "useUTC" ["t"] "OCTOPUS_USE_UTC") "useUTC" "--"); cbn; tauto.
Qed.

Example C125_names_case :
  run_line sample_world sales_files no_env ["diff"; "md"; "--from"; "a.json"; "-f"; "a.json"; "--to"; "b.json"; "-o"; "o.md"] = ([], Failed) /\
  snd (run_line sample_world sales_files no_env ["diff"; "md"; "--from"; "x.json"; "--from"; "a.json"; "--to"; "b.json"; "-o"; "o.md"]) = Done /\
  run_line sample_world sales_files no_env ["diff"; "md"; "--comment"; "--from"; "a.json"; "--to"; "b.json"; "-o"; "o.md"] = ([], Failed) /\
  run_line sample_world sales_files no_env ["diff"; "md"; "--comments=yes"; "--from"; "a.json"; "--to"; "b.json"; "-o"; "o.md"] = ([], Failed).
Proof. repeat split; vm_compute; reflexivity. Qed.
