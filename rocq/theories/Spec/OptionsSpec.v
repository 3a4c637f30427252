(** The options of the commands as /repo/docs describes them, and what it means that an option has an effect *)
From Coq Require Import String List Bool.
From Verif.Model Require Import GoString Octopus Cli.
From Verif.Spec Require Import OctopusSpec OjsonSpec DiffSpec.
Import ListNotations.
Local Open Scope string_scope.

(** long name, short names, environment variable *)
Definition opt : Type := string * list string * string.

(** The option tables of docs: init.md, mysql.md, ojson.md, staruml.md, xlsx.md, dbml.md, quickdbd.md, gorm.md,
    graphql.md, jpa.md, liquibase.md, plantuml.md, protobuf.md, sqlalchemy.md. The commands "diff flyway"
    and "diff md" have no table. *)
Definition documented_options (c : command) : list opt :=
  let i := ("input", ["i"], "OCTOPUS_INPUT") in
  let o := ("output", ["o"], "OCTOPUS_OUTPUT") in
  let groups := ("groups", ["g"], "OCTOPUS_GROUPS") in
  let suffix k := ("uniqueNameSuffix", [k], "OCTOPUS_UNIQUE_NAME_SUFFIX") in
  match c with
  | Init => [o]
  | ImportMysql => [("author", ["a"], "OCTOPUS_AUTHOR"); i; o; ("excludes", ["x"], "OCTOPUS_EXCLUDES");
                    ("version", ["v"], "OCTOPUS_VERSION")]
  | ImportOjson | ImportStaruml | ImportXlsx | ExportQuickdbd | GeneratePlantuml => [i; o]
  | ExportDbml => [i; o; groups]
  | ExportMysql => [i; o; groups; suffix "u"]
  | ExportXlsx => [i; o; ("useNullColumn", [], "OCTOPUS_USE_NULL_COLUMN")]
  | GenerateGorm => [i; o; ("pointerAssociation", ["a"], "OCTOPUS_POINTER_ASSOCIATION");
                     ("embed", ["e"], "OCTOPUS_EMBED"); groups; ("package", ["k"], "OCTOPUS_PACKAGE");
                     ("prefix", ["p"], "OCTOPUS_PREFIX"); ("removePrefix", ["r"], "OCTOPUS_REMOVE_PREFIX"); suffix "u"]
  | GenerateGraphql => [i; o; ("graphqlPackage", ["p"], "OCTOPUS_GRAPHQL_PACKAGE")]
  | GenerateKt => [i; o; ("annotation", ["a"], "OCTOPUS_ANNOTATION"); groups; ("idEntity", ["e"], "OCTOPUS_ID_ENTITY");
                   ("package", ["p"], "OCTOPUS_PACKAGE"); ("prefix", ["f"], "OCTOPUS_PREFIX");
                   ("relation", ["l"], "OCTOPUS_RELATION"); ("removePrefix", ["d"], "OCTOPUS_REMOVE_PREFIX");
                   ("reposPackage", ["r"], "OCTOPUS_REPOS_PACKAGE"); suffix "q"; ("useUTC", ["u"], "OCTOPUS_USE_UTC")]
  | GenerateLiquibase => [i; o; groups; suffix "u"; ("comments", ["c"], "OCTOPUS_COMMENTS")]
  | GeneratePb => [i; o; ("goPackage", [], "OCTOPUS_GO_PACKAGE"); groups; ("package", ["p"], "OCTOPUS_PACKAGE");
                   ("prefix", ["f"], "OCTOPUS_PREFIX"); ("removePrefix", ["d"], "OCTOPUS_REMOVE_PREFIX");
                   ("relationTagDecr", [], "OCTOPUS_RELATION_TAG_DECR");
                   ("relationTagStart", [], "OCTOPUS_RELATION_TAG_START")]
  | GenerateSqlalchemy => [i; o; groups; ("prefix", ["p"], "OCTOPUS_PREFIX");
                           ("removePrefix", ["r"], "OCTOPUS_REMOVE_PREFIX"); suffix "u"; ("useUTC", ["t"], "OCTOPUS_USE_UTC")]
  | DiffLiquibase => [("author", ["a"], "OCTOPUS_AUTHOR"); ("from", ["f"], "OCTOPUS_FROM"); groups; o;
                      ("to", ["t"], "OCTOPUS_TO"); suffix "u"; ("comments", ["c"], "OCTOPUS_COMMENTS")]
  | DiffFlyway | DiffMd => []
  end.

(** the options the tables describe as flags to set, or as false by default *)
Definition documented_switches : list (command * string) :=
  [(ExportXlsx, "useNullColumn"); (GenerateGorm, "pointerAssociation"); (GenerateKt, "useUTC");
   (GenerateLiquibase, "comments"); (GeneratePb, "relationTagDecr"); (GenerateSqlalchemy, "useUTC");
   (DiffLiquibase, "comments")].

(** all ways to name the options of a command *)
Definition option_words (c : command) : list string :=
  flat_map (fun f => fl_name f :: fl_aliases f) (command_flags c).

(** sorting sorts, and maps are iterated over in some order *)
Definition real_world (w : world) : Prop :=
  sorts_tables (w_sort w) /\ sorts_v1 (w_sort_v1 w) /\
  iteration_order (w_ord_tables w) /\ (forall i, iteration_order (w_ord_columns w i)) /\
  iteration_order (w_ord_keys w) /\ (forall i, iteration_order (w_ord_models w i)) /\
  (forall i, iteration_order (w_ord_names w i)).

(** the values are the same, except for one option *)
Definition differ_only_at (name : string) (v v' : values) : Prop := forall n, n <> name -> v n = v' n.

(** the value of the option decides what is written: in two successful runs that differ in nothing else,
    different files come out *)
Definition has_effect (c : command) (name : string) : Prop :=
  exists w fs v v', real_world w /\ differ_only_at name v v' /\
    snd (run w fs c v) = Done /\ snd (run w fs c v') = Done /\ fst (run w fs c v) <> fst (run w fs c v').

(** the value of the option never matters *)
Definition ignored (c : command) (name : string) : Prop :=
  forall w fs v v', differ_only_at name v v' -> run w fs c v = run w fs c v'.

(** the options that are declared but never looked at *)
Definition dead_options : list (command * string) :=
  [(ExportDbml, "groups"); (GenerateGraphql, "graphqlPackage"); (GenerateKt, "useUTC");
   (GeneratePb, "relationTagDecr"); (GeneratePb, "relationTagStart"); (DiffFlyway, "author");
   (DiffLiquibase, "uniqueNameSuffix"); (DiffMd, "author"); (DiffMd, "uniqueNameSuffix")].
