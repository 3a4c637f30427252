(** When two schemas agree in all that a comparison is about *)
From Coq Require Import String List Bool NArith.
From Verif.Model Require Import GoString Octopus Cli.
From Verif.Spec Require Import DiffSpec CliSpec.
Import ListNotations.
Local Open Scope string_scope.

(** a column as it was; references, values of enums and on-update values are not part of a comparison *)
Definition as_before (comments : bool) (o c : column) : Prop :=
  c_name c = c_name o /\ c_type c = c_type o /\ c_size c = c_size o /\ c_scale c = c_scale o /\
  c_notnull c = c_notnull o /\ c_pk c = c_pk o /\ c_uq c = c_uq o /\ c_default c = c_default o /\
  (comments = true -> c_desc c = c_desc o).

(** the tables are the same, the columns of each are the same up to [alike], and only columns with [more] are new *)
Definition table_agrees (alike : column -> column -> Prop) (more : column -> Prop) (comments : bool) (old t : table) : Prop :=
  (comments = true -> t_desc t = t_desc old) /\
  (forall o, In o (t_cols old) -> exists c, In c (t_cols t) /\ alike o c) /\
  (forall c, In c (t_cols t) -> (exists o, In o (t_cols old) /\ alike o c) \/ (~ In (c_name c) (map c_name (t_cols old)) /\ more c)).
Definition agree_by (alike : column -> column -> Prop) (more : column -> Prop) (comments : bool)
  (f : option (table -> bool)) (from to : schema) : Prop :=
  (forall old, In old (s_tables from) -> exists t, In t (s_tables to) /\ selected f t /\ t_name t = t_name old) /\
  (forall t, In t (s_tables to) -> selected f t -> exists old, In old (s_tables from) /\ t_name old = t_name t /\
     table_agrees alike more comments old t).

Definition same_column (comments : bool) (o c : column) : Prop := as_before comments o c /\ c_autoinc c = c_autoinc o.
Definition agree (comments : bool) := agree_by (same_column comments) (fun _ => False) comments.

(** what the reports overlook: new columns outside of keys; what change logs overlook: auto-increment that is turned off *)
Definition plain_more (c : column) : Prop := c_pk c = false /\ c_uq c = false.
Definition log_alike (comments : bool) (o c : column) : Prop := as_before comments o c /\ (c_autoinc c = true -> c_autoinc o = true).

(** the diff commands write reports without changes *)
Definition says_nothing (w : world) (fs : files) (v : values) (a b : schema) : Prop :=
  run w fs DiffFlyway v = ([(given v "output", "")], Done) /\
  run w fs DiffLiquibase v = ([(given v "output", w_yaml w [])], Done) /\
  run w fs DiffMd v = ([(given v "output", "# DB Schema changes

* from: `" ++ s_version a ++ "`
* to: `" ++ s_version b ++ "`
")], Done).

(** a comparison of file x with file y, of all tables *)
Definition compares (v : values) (x y : string) : Prop :=
  v "output" <> None /\ given v "groups" = "" /\ v "from" = Some x /\ v "to" = Some y.
