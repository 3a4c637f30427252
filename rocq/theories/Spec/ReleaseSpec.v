(** Databases that are brought from version to version, and databases that are made new *)
From Coq Require Import String List NArith ZArith Bool Sorting.Permutation.
From Verif.Model Require Import GoString Octopus Mysql Cli.
From Verif.Spec Require Import DiffSpec MysqlGrammar MysqlSpec FlywaySpec ServerSpec CliSpec.
Import ListNotations.
Local Open Scope string_scope.

(** the same but for the order of the tables and of the columns in a primary key *)
Definition same_sql_table (b b' : sql_table) : Prop :=
  q_table b = q_table b' /\ q_cols b = q_cols b' /\ q_keys b = q_keys b' /\ (forall k, In k (q_pk b) <-> In k (q_pk b')).
Definition same_database (s s' : sql_server) : Prop :=
  exists l, Permutation s' l /\ Forall2 same_sql_table s l.

(** a DDL file, run on an empty server *)
Definition run_ddl (reserved : string -> bool) (text : string) : option sql_server :=
  match read_sql reserved text with
  | Some stmts => run_stmts [] (map MCreate stmts)
  | None => None
  end.

(** scripts, run one after the other *)
Fixpoint run_scripts (reserved : string -> bool) (s : sql_server) (scripts : list string) : option sql_server :=
  match scripts with
  | [] => Some s
  | text :: rest =>
      match read_script reserved text with
      | Some ms => match run_stmts s ms with Some s' => run_scripts reserved s' rest | None => None end
      | None => None
      end
  end.

(** from one version to the next only things change that a script can express *)
Record follows (a b : list table) : Prop := {
  fo_altered : forall t old, In t b -> In old a -> t_name old = t_name t -> alterable old t;
  fo_renamed : forall t old, In t b -> In old a -> ~ In (t_name t) (map t_name a) -> t_cols t = t_cols old ->
               (forall k, ~ uq_column t k) /\ t_indices t = t_indices old
}.

(** [releases first scripts last]: schema files from [first] to [last], and for each but the first the script that
    "diff flyway" writes for it and the file before it *)
Inductive releases (w : world) (fs : string -> option string) (reserved : string -> bool) (suffix : string) :
  string -> list string -> string -> Prop :=
| rl_last : forall f s, load_file w fs f = Loaded s -> proper (alter_reserved reserved) suffix (s_tables s) ->
    releases w fs reserved suffix f [] f
| rl_next : forall f g h a b v text rest,
    load_file w fs f = Loaded a -> load_file w fs g = Loaded b -> proper (alter_reserved reserved) suffix (s_tables a) ->
    follows (s_tables a) (s_tables b) ->
    given v "from" = f -> given v "to" = g -> given v "groups" = "" -> given v "uniqueNameSuffix" = suffix ->
    run w fs DiffFlyway v = ([(given v "output", text)], Done) ->
    releases w fs reserved suffix g rest h ->
    releases w fs reserved suffix f (text :: rest) h.

(** the options of an export of all tables *)
Record exports (v : values) (file suffix : string) : Prop := {
  ep_input : v "input" <> None /\ given v "input" = file;
  ep_output : v "output" <> None;
  ep_groups : given v "groups" = "";
  ep_suffix : given v "uniqueNameSuffix" = suffix
}.
