(** Which database a generated model is for (C112) *)
From Coq Require Import String Ascii List NArith Bool.
From Verif.Model Require Import GoString Octopus Mysql.
From Verif.Spec Require Import ServerSpec CreatedSpec.
Import ListNotations.
Local Open Scope string_scope.

(** a column, whether it belongs to the primary key, must not be null, counts up by itself *)
Record mapped := mkMapped { mp_column : string; mp_key : bool; mp_required : bool; mp_counts : bool }.
(** the unique constraints: a name, if there is one, and the columns *)
Record mapping := mkMapping { mg_table : string; mg_columns : list mapped; mg_unique : list (option string * list string) }.

(** ** The table of the database *)
Record fits_column (b : sql_table) (q : sql_column) (m : mapped) : Prop := {
  fc_name : mp_column m = q_name q;
  fc_key : mp_key m = true <-> In (q_name q) (q_pk b);
  fc_null : mp_required m = q_notnull q;
  fc_auto : mp_counts m = q_autoinc q
}.
(** the same columns in the same order, the same key, the same unique keys, with the same name if there is a name *)
Record fits (b : sql_table) (m : mapping) : Prop := {
  ft_name : mg_table m = q_table b;
  ft_columns : Forall2 (fits_column b) (q_cols b) (mg_columns m);
  ft_unique : forall n ks, In (KUniq n ks) (q_keys b) -> exists u, In u (mg_unique m) /\ (fst u = None \/ fst u = Some n) /\ same_members (snd u) ks;
  ft_others : forall u, In u (mg_unique m) -> exists n ks, In (KUniq n ks) (q_keys b) /\ (fst u = None \/ fst u = Some n) /\ same_members (snd u) ks
}.
