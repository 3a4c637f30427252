(** Where values are after the change logs of a sequence of versions (C119) *)
From Coq Require Import String List NArith Bool.
From Verif.Model Require Import GoString Octopus Liquibase Cli.
From Verif.Spec Require Import CliSpec EndSpec LiquibaseSpec TraceSpec.
Import ListNotations.
Local Open Scope string_scope.

(** [steps first versions texts last]: schema files from [first] to [last], what they describe, and for each but the first
    the change log that "diff liquibase" writes for it and the file before it *)
Inductive steps (w : world) (fs : string -> option string) (comments : bool) :
  string -> list (list table) -> list string -> string -> Prop :=
| st_last : forall f s, load_file w fs f = Loaded s -> steps w fs comments f [s_tables s] [] f
| st_next : forall f g h a v text versions rest,
    load_file w fs f = Loaded a ->
    given v "from" = f -> given v "to" = g -> given v "groups" = "" -> (comments = true <-> switched_on v "comments") ->
    run w fs DiffLiquibase v = ([(given v "output", text)], Done) ->
    steps w fs comments g versions rest h ->
    steps w fs comments f (s_tables a :: versions) (text :: rest) h.

(** a way through the versions from the place [p] of the first to the place [q] of the last; at each version the values
    stay if they can *)
Inductive way (comments : bool) : list (list table) -> place -> place -> Prop :=
| way_end : forall a p, has a p -> way comments [a] p p
| way_stays : forall a b rest p q, has a p -> has b p -> way comments (b :: rest) p q -> way comments (a :: b :: rest) p q
| way_moves : forall a b rest p p' q, has a p -> ~ has b p -> may_move comments a b p p' -> way comments (b :: rest) p' q ->
    way comments (a :: b :: rest) p q.

(** all the statements of some change logs *)
Definition all_statements (logs : list (list lq_cset)) : list lq_change := flat_map lq_all logs.

(** the values of the first version go through all of them, and stay apart *)
Record goes (comments : bool) (versions : list (list table)) (tr : place -> option place) : Prop := {
  go_way : forall p q, has (hd [] versions) p -> tr p = Some q -> way comments versions p q;
  go_apart : forall p p' q, has (hd [] versions) p -> has (hd [] versions) p' -> tr p = Some q -> tr p' = Some q -> p = p'
}.
