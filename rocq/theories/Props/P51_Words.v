(** Descriptions without the option comments (C128) *)
From Coq Require Import String Ascii List NArith Bool.
From Verif.Model Require Import GoString Util Octopus Common Mysql DiffWriters Cli.
From Verif.Spec Require Import DiffSpec OctopusSpec OptionsSpec MattersSpec WordsSpec.
From Verif.Proofs Require Import CliCases EndCases MattersProofs MattersCases ComparedCases WordsProofs WordsCases.
Import ListNotations.
Local Open Scope string_scope.

(** C128. Without the option comments, descriptions make no difference. False for every comparison: tables are only
    taken for renamed if the descriptions of their columns are the same too. *)
Theorem C128_refuted : forall c, In c [DiffMd; DiffFlyway; DiffLiquibase] -> words_matter c (fun _ _ => True).
Proof. exact renamed_differs. Qed.
Print Assumptions C128_refuted.

(** Scripts carry descriptions of columns even if no table is new. *)
Theorem C128_script_refuted : words_matter DiffFlyway no_new_tables.
Proof. exact script_differs. Qed.
Print Assumptions C128_script_refuted.

(** The change log of one schema always carries the descriptions of tables. *)
Theorem C128_generate_refuted : exists w fs fs' v f s s', real_world w /\ without_comments v /\ v "input" = Some f /\
  load_file w fs f = Loaded s /\ load_file w fs' f = Loaded s' /\ same_but_words s s' /\
  snd (run w fs GenerateLiquibase v) = Done /\ snd (run w fs' GenerateLiquibase v) = Done /\
  fst (run w fs GenerateLiquibase v) <> fst (run w fs' GenerateLiquibase v).
Proof. exact log_differs. Qed.
Print Assumptions C128_generate_refuted.

(** What holds: in a report or a change log of differences, if no table is new; *)
Theorem C128_partial : forall w fs fs' c v nf nt a b a' b', In c [DiffMd; DiffLiquibase] -> without_comments v ->
  iteration_order (w_ord_tables w) -> (forall i, by_key (w_ord_columns w i)) -> v "from" = Some nf -> v "to" = Some nt ->
  load_file w fs nf = Loaded a -> load_file w fs nt = Loaded b -> load_file w fs' nf = Loaded a' -> load_file w fs' nt = Loaded b' ->
  same_but_words a a' -> same_but_words b b' -> no_new_tables a b -> run w fs c v = run w fs' c v.
Proof. exact words_compared. Qed.
Print Assumptions C128_partial.

(** and in the change log of one schema, for the descriptions of columns. *)
Theorem C128_generate_partial : forall w fs fs' v f s s', without_comments v -> v "input" = Some f ->
  load_file w fs f = Loaded s -> load_file w fs' f = Loaded s' -> same_schema (fun a => a <> CDesc) s s' ->
  run w fs GenerateLiquibase v = run w fs' GenerateLiquibase v.
Proof. exact words_generated. Qed.
Print Assumptions C128_generate_partial.

(** A table that gets another name is renamed; if a column is described at the same time, the table is dropped, with all
    its rows, and made anew. A column that gets another name is renamed all the same. *)
Example C128_refuted_case :
  text_written (run end_world (ex_files (worded "a" "" "" false) (worded "b" "" "" false)) DiffMd plain_values) =
    String.concat newline ["# DB Schema changes"; ""; "* from: `1`"; "* to: `1`"; ""; "## a"; "* drop unique constraint: [name]";
      "* rename table `a` " ++ arrow ++ " `b`"; ""; "## b"; "* create unique constraint: [name]"; ""] /\
  text_written (run end_world (ex_files (worded "a" "" "" false) (worded "b" "key" "" false)) DiffMd plain_values) =
    String.concat newline ["# DB Schema changes"; ""; "* from: `1`"; "* to: `1`"; ""; "## a"; "* drop table"; ""; "## b"; "* create table"; ""].
Proof. split; vm_compute; reflexivity. Qed.
Definition nicked (words : string) : schema :=
  mkSchema "me" "store" "1"
    [mkTable "a" [mkCol "id" "int64" "" 0 0 true true false false "" "" [] None;
                  mkCol "nick" "varchar" words 40 0 true false true false "" "" [] None;
                  mkCol "age" "int32" words 0 0 true false false false "" "" [] None] words "g" "" []].
Example C128_partial_case :
  same_but_words (nicked "") (nicked "notes") /\ no_new_tables (worded "a" "" "" false) (nicked "") /\
  load_file end_world (ex_files (worded "a" "" "" false) (nicked "notes")) "b.json" = Loaded (nicked "notes") /\
  run end_world (ex_files (worded "a" "x" "y" false) (nicked "notes")) DiffMd plain_values =
    run end_world (ex_files (worded "a" "" "" false) (nicked "")) DiffMd plain_values /\
  text_written (run end_world (ex_files (worded "a" "x" "y" false) (nicked "notes")) DiffMd plain_values) =
    String.concat newline ["# DB Schema changes"; ""; "* from: `1`"; "* to: `1`"; ""; "## a"; "* drop unique constraint: [name]";
      "* rename column: `name` " ++ arrow ++ " `nick`"; "* create unique constraint: [nick]"; ""].
Proof.
  refine (conj _ (conj _ (conj _ (conj _ _)))).
  - unfold same_but_words. pairwise; exfalso; match goal with H : _ /\ _ |- _ => destruct H end; congruence.
  - intros t [<-|[]]. now left.
  - vm_compute. reflexivity.
  - vm_compute. reflexivity.
  - vm_compute. reflexivity.
Qed.
Example C128_generate_partial_case :
  run end_world (ex_files (worded "a" "x" "y" false) (nicked "")) GenerateLiquibase plain_values =
    run end_world (ex_files (worded "a" "" "y" false) (nicked "")) GenerateLiquibase plain_values /\
  snd (run end_world (ex_files (worded "a" "x" "y" false) (nicked "")) GenerateLiquibase plain_values) = Done.
Proof. split; vm_compute; reflexivity. Qed.
