(** Adding columns to the tables of a schema: SQLAlchemy classes (C142) *)
From Coq Require Import String List Bool.
From Verif.Model Require Import GoString Octopus.
From Verif.Spec Require Import LocalSpec WidenSpec.
Import ListNotations.

(** there is no constraint of several unique columns yet, or no added column is unique *)
Definition constraint_kept (t t' : table) : Prop := (length (unique_of t) <= 1)%nat \/ unique_of t' = unique_of t.
(** the same files in the same order; in each of them only lines are added, imports aside *)
Definition files_add_besides (l l' : list (string * string)) : Prop :=
  Forall2 (fun f f' => fst f' = fst f /\ sub (besides_imports (snd f)) (besides_imports (snd f'))) l l'.
