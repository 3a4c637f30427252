(** Command lines as examples (C124, C125) *)
From Coq Require Import String Ascii List Bool Arith Lia.
From Verif.Model Require Import GoString Cli Args.
From Verif.Spec Require Import OptionsSpec ArgsSpec.
From Verif.Proofs Require Import StringLemmas CliCases CliOptions ArgsProofs.
Import ListNotations.
Local Open Scope string_scope.

Definition no_env : string -> option string := fun _ => None.

Lemma not_completion : forall args, String.eqb (last args "") "--generate-bash-completion" = false -> ~ completion args.
Proof. intros args H C. apply completion_iff in C. unfold completion_asked in C. congruence. Qed.

(** the options of a comparison, one of them a switch followed by a word *)
Definition md_from : flag := req_flag "from" ["f"] "OCTOPUS_FROM".
Definition md_to : flag := req_flag "to" ["t"] "OCTOPUS_TO".
Definition md_comments : flag := bool_flag "comments" ["c"] "OCTOPUS_COMMENTS".
Definition md_options : list (flag * string * string) :=
  [(md_from, "from", "a.json"); (md_to, "t", "b.json"); (output_flag, "output", "o.md"); (md_comments, "comments", "true")].
Definition md_args : list string := ["--from"; "a.json"; "-t=b.json"; "--output"; "o.md"; "--comments"].
Lemma md_spelled : spelled_all (command_flags DiffMd ++ [help]) md_options md_args.
Proof.
  change md_args with (app ["--" ++ "from"; "a.json"] (app ["-" ++ "t" ++ "=" ++ "b.json"] (app ["--" ++ "output"; "o.md"] (app ["--" ++ "comments"] [])))).
  repeat (apply one_more; [cbn; tauto| |]); [apply apart|apply joined|apply apart|apply alone|apply no_more]; cbn; try tauto; discriminate.
Qed.

Lemma stray_refuted : exists w fs env c es a stray f n x b,
  spelled_all (command_flags c ++ [help]) es a /\ In f (command_flags c) /\ spelled f n x b /\
  snd (run_line w fs env (command_words c ++ a ++ [stray] ++ b)) = Done /\
  run_line w fs env (command_words c ++ a ++ [stray] ++ b) = run_line w fs env (command_words c ++ a) /\
  run_line w fs env (command_words c ++ a ++ [stray] ++ b) <> run_line w fs env (command_words c ++ a ++ b).
Proof.
  exists sample_world, sales_files, no_env, DiffMd, md_options, md_args, "true", groups_flag, "groups", "g1", ["--groups"; "g1"].
  split; [exact md_spelled|]. split; [cbn; tauto|].
  split; [change ["--groups"; "g1"] with [("--" ++ "groups")%string; "g1"]; apply apart; cbn; tauto|].
  split; [vm_compute; reflexivity|]. split; [vm_compute; reflexivity|vm_compute; discriminate].
Qed.

(** the same command line with a group from the environment *)
Definition group_env : string -> option string := fun n => if String.eqb n "OCTOPUS_GROUPS" then Some "g1" else if String.eqb n "OCTOPUS_FROM" then Some "c.json" else None.
Definition md_values : values := fun n =>
  if String.eqb n "from" then Some "a.json" else if String.eqb n "to" then Some "b.json" else if String.eqb n "output" then Some "o.md"
  else if String.eqb n "comments" then Some "true" else if String.eqb n "groups" then Some "g1" else None.
Lemma asks_case : asks group_env (["diff"; "md"] ++ md_args) DiffMd md_values.
Proof.
  apply line_iff. eexists. split; [vm_compute; reflexivity|]. intro n. unfold md_values.
  repeat match goal with |- context [String.eqb n ?a] => destruct (String.eqb_spec n a) as [->|?]; [vm_compute; reflexivity|] end.
  change (flag_values group_env DiffMd (map strip md_options) n = None). unfold flag_values.
  destruct (find _ _) as [f|] eqn:F; [|reflexivity]. apply find_some in F as [F E]. apply String.eqb_eq in E. subst n.
  cbn in F. repeat (destruct F as [<-|F]; [try (vm_compute; reflexivity); cbn in *; congruence|]). destruct F.
Qed.

Lemma other_case : (forall c v, ~ asks no_env ["export"; "postgres"; "--input"; "a.json"] c v) /\
  ~ completion ["export"; "postgres"; "--input"; "a.json"] /\ ~ version_between ["export"; "postgres"; "--input"; "a.json"].
Proof.
  split; [|split].
  - intros c v A. apply line_iff in A as (v' & E & _). vm_compute in E. discriminate.
  - apply not_completion. reflexivity.
  - intros (es & w1 & args1 & es2 & a & r & left & B & -> & S & E & n & x & I).
    destruct (begins_parse _ _ _ _ good_program B) as (P & _).
    assert (K : parse_flags [help; version] ["export"; "postgres"; "--input"; "a.json"] = Some ([], ["export"; "postgres"; "--input"; "a.json"])) by reflexivity.
    rewrite K in P. injection P as _ _ P.
    pose proof (parse_spelled _ _ _ _ _ good_program S E) as Q. rewrite <- P in Q.
    assert (K' : parse_flags [help; version] ["postgres"; "--input"; "a.json"] = Some ([], ["postgres"; "--input"; "a.json"])) by reflexivity.
    rewrite K' in Q. injection Q as Q _.
    destruct es2; [destruct I|discriminate].
Qed.
