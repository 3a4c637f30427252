(** Adding columns to the tables of a schema (C131) *)
From Coq Require Import String List Bool.
From Verif.Model Require Import GoString Octopus.
From Verif.Spec Require Import LocalSpec.
Import ListNotations.

(** [t'] is [t] with columns added anywhere *)
Definition widened_table (t t' : table) : Prop :=
  t_name t' = t_name t /\ t_group t' = t_group t /\ t_class t' = t_class t /\ t_desc t' = t_desc t /\
  t_indices t' = t_indices t /\ sub (t_cols t) (t_cols t').
(** [s'] is [s] with columns added to its tables *)
Definition widened (s s' : schema) : Prop :=
  s_author s' = s_author s /\ s_name s' = s_name s /\ s_version s' = s_version s /\
  Forall2 widened_table (s_tables s) (s_tables s').

(** the columns of the primary key, the unique ones *)
Definition key_of (t : table) : list column := filter c_pk (t_cols t).
Definition unique_of (t : table) : list column := filter c_uq (t_cols t).

(** the columns of the primary key come first *)
Definition key_first (t : table) : Prop :=
  exists ks cs, t_cols t = (ks ++ cs)%list /\ (forall c, In c ks -> c_pk c = true) /\ (forall c, In c cs -> c_pk c = false).

(** no added column belongs to the primary key *)
Definition key_kept (t t' : table) : Prop := key_of t' = key_of t.
(** no added column belongs to a key, and there is a key or an index *)
Definition keys_kept (t t' : table) : Prop :=
  key_of t' = key_of t /\ unique_of t' = unique_of t /\ (key_of t <> [] \/ unique_of t <> [] \/ t_indices t <> []).
