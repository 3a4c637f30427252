(** Adding columns to the tables of a schema: Kotlin classes (C141) *)
From Coq Require Import String List Bool.
From Verif.Model Require Import GoString Octopus.
From Verif.Spec Require Import LocalSpec.
Import ListNotations.

(** the last column of the table stays the last one *)
Definition last_kept (t t' : table) : Prop :=
  forall a c, t_cols t = (a ++ [c])%list -> exists a', t_cols t' = (a' ++ [c])%list.
(** the same files in the same order; in each of them lines are only added *)
Definition files_add (l l' : list (string * string)) : Prop :=
  Forall2 (fun f f' => fst f' = fst f /\ only_adds (snd f) (snd f')) l l'.
