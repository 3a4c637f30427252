(** Adding columns to the tables of a schema: change logs (C144) *)
From Coq Require Import String List Bool.
From Verif.Model Require Import GoString Octopus Liquibase.
From Verif.Spec Require Import LocalSpec.
Import ListNotations.

(** the same change, or the same table created with more columns *)
Inductive change_adds : lq_change -> lq_change -> Prop :=
| ca_same : forall x, change_adds x x
| ca_create : forall t d cols cols', sub cols cols' -> change_adds (LqCreateTable t d cols) (LqCreateTable t d cols').
(** the same change set but for such changes *)
Definition cset_adds (x x' : lq_cset) : Prop :=
  lq_id x' = lq_id x /\ lq_author x' = lq_author x /\ lq_pre x' = lq_pre x /\ Forall2 change_adds (lq_changes x) (lq_changes x').
(** every change set is still there *)
Definition log_adds (l l' : list lq_cset) : Prop := forall x, In x l -> exists x', In x' l' /\ cset_adds x x'.
