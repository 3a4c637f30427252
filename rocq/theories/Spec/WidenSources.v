(** Adding columns to the tables of a schema: sources of programs (C140) *)
From Coq Require Import String List ZArith Bool.
From Verif.Model Require Import GoString Octopus.
From Verif.Spec Require Import GormSpec WidenSpec.
Import ListNotations.

(** no embedded model is completed by the added columns *)
Definition same_models (m : list (string * list string)) (t t' : table) : Prop :=
  forall n cols, In (n, cols) m -> fits_table t' cols -> fits_table t cols.
(** no added column is unique *)
Definition unique_kept (t t' : table) : Prop := unique_of t' = unique_of t.

(** columns are added at the end only *)
Definition appended (t t' : table) : Prop := exists more, t_cols t' = (t_cols t ++ more)%list.
(** the numbers of the relations of [t] stay: it has none, it gets no columns, or the numbers start, upwards, behind
    all columns *)
Definition numbers_stay (start : Z) (decr : bool) (t t' : table) : Prop :=
  (forall c, In c (t_cols t) -> c_ref c = None) \/ t_cols t' = t_cols t \/
  (decr = false /\ (Z.of_nat (length (t_cols t')) < start)%Z).
