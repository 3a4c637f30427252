(** Databases that change logs bring from version to version, and databases that a change log makes *)
From Coq Require Import String List NArith Bool Sorting.Permutation.
From Verif.Model Require Import GoString Octopus Liquibase Cli.
From Verif.Spec Require Import CliSpec OptionsSpec EndSpec Database.
Import ListNotations.
Local Open Scope string_scope.

(** the same but for the order of the tables, of the columns, and of the names in a key; comments count only if they
    are asked for *)
Definition same_dbcol (comments : bool) (d d' : dbcol) : Prop :=
  d_name d = d_name d' /\ d_type d = d_type d' /\ d_notnull d = d_notnull d' /\ d_autoinc d = d_autoinc d' /\
  d_default d = d_default d' /\ (comments = true -> d_remarks d = d_remarks d').
Definition same_constraint (u u' : option string * list string) : Prop :=
  fst u = fst u' /\ forall k, In k (snd u) <-> In k (snd u').
Definition same_dbtable (comments : bool) (b b' : dbtable) : Prop :=
  b_name b = b_name b' /\ (comments = true -> b_remarks b = b_remarks b') /\
  (exists ds, Permutation (b_cols b') ds /\ Forall2 (same_dbcol comments) (b_cols b) ds) /\
  (forall k, In k (b_pk b) <-> In k (b_pk b')) /\ Forall2 same_constraint (b_uqs b) (b_uqs b').
Definition same_db (comments : bool) (s s' : db) : Prop :=
  exists l, Permutation s' l /\ Forall2 (same_dbtable comments) s l.

(** logs, run one after the other *)
Fixpoint run_logs (sv : server) (logs : list (list lq_cset)) (s : db) : option db :=
  match logs with
  | [] => Some s
  | log :: rest => match run_log sv log s with Some s' => run_logs sv rest s' | None => None end
  end.

(** a table with a version before it: what the change log can express *)
Record log_alterable (float_ok : string -> bool) (sv : server) (old t : table) : Prop := {
  (* a unique constraint is only added or changed if there was one *)
  la_unique : (forall k, uq_of t k <-> uq_of old k) \/ (exists k, uq_of old k);
  (* auto-increment is not removed *)
  la_autoinc : forall c o, In c (t_cols t) -> In o (t_cols old) -> c_name c = c_name o -> c_autoinc o = true -> c_autoinc c = true;
  (* a default that is written the same means the same *)
  la_default : forall c o, In c (t_cols t) -> In o (t_cols old) -> c_name c = c_name o ->
    c_default c = c_default o -> schema_default float_ok c = schema_default float_ok o;
  (* a column of the old key does not become nullable *)
  la_null : forall c o, In c (t_cols t) -> In o (t_cols old) -> c_name c = c_name o -> c_pk o = true -> c_notnull c = true;
  (* if the key changes, some column of the old one is still there *)
  la_key : (forall k, pk_of t k <-> pk_of old k) \/ (~ exists k, pk_of old k) \/
    (exists k, pk_of old k /\ In k (map c_name (t_cols t)));
  (* some column is still there, unless the server accepts tables without columns *)
  la_some : sv_empty_tables sv = true \/ (exists k, In k (map c_name (t_cols old)) /\ In k (map c_name (t_cols t))) \/ t_cols old = []
}.

Record log_follows (float_ok : string -> bool) (sv : server) (comments : bool) (a b : list table) : Prop := {
  lf_altered : forall t old, In t b -> In old a -> t_name old = t_name t -> log_alterable float_ok sv old t;
  lf_renamed : forall t old, In t b -> In old a -> ~ In (t_name t) (map t_name a) -> t_cols t = t_cols old ->
    comments = true -> t_desc t = t_desc old
}.

(** distinct names, not null keys; no table has exactly one unique column *)
Definition log_proper (ts : list table) : Prop :=
  NoDup (map t_name ts) /\ forall t, In t ts -> well_formed t /\ ~ lone_unique t.

(** [log_releases first texts last]: schema files from [first] to [last], and for each but the first the change log
    that "diff liquibase" writes for it and the file before it *)
Inductive log_releases (w : world) (fs : string -> option string) (sv : server) (comments : bool) :
  string -> list string -> string -> Prop :=
| lr_last : forall f s, load_file w fs f = Loaded s -> log_proper (s_tables s) -> log_releases w fs sv comments f [] f
| lr_next : forall f g h a b v text rest,
    load_file w fs f = Loaded a -> load_file w fs g = Loaded b -> log_proper (s_tables a) ->
    log_follows (w_float_ok w) sv comments (s_tables a) (s_tables b) ->
    given v "from" = f -> given v "to" = g -> given v "groups" = "" -> (comments = true <-> switched_on v "comments") ->
    run w fs DiffLiquibase v = ([(given v "output", text)], Done) ->
    log_releases w fs sv comments g rest h ->
    log_releases w fs sv comments f (text :: rest) h.

(** the change log of all tables of a file; the names of its constraints are the ones "diff liquibase" assumes *)
Record makes (w : world) (fs : string -> option string) (v : values) (file : string) (comments : bool) (text : string) : Prop := {
  mk_input : given v "input" = file;
  mk_groups : given v "groups" = "";
  mk_suffix : given v "uniqueNameSuffix" = "";
  mk_comments : comments = true <-> switched_on v "comments";
  mk_done : run w fs GenerateLiquibase v = ([(given v "output", text)], Done)
}.
