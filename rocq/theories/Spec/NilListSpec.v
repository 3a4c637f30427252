(** Slices that are nil in the same places *)
From Coq Require Import List.
From Verif.Model Require Import Octopus NilValues.
Import ListNotations.

(** Two tables with the same columns agree about which of their slices without elements are nil. *)
Definition same_nils (t : table) (m m' : nils) : Prop :=
  (t_cols t = [] -> nil_columns m = nil_columns m') /\
  (forall i c, nth_error (t_cols t) i = Some c -> c_values c = [] -> nth_error (nil_values m) i = nth_error (nil_values m') i).
(** The new tables whose columns are those of an old one agree with it. *)
Definition agree (new_nils : nat -> nils) (old_nils : String.string -> nils) (from to : schema) : Prop :=
  forall i t old, nth_error (s_tables to) i = Some t -> In old (s_tables from) -> ~ In (t_name t) (map t_name (s_tables from)) ->
    t_cols t = t_cols old -> same_nils t (new_nils i) (old_nils (t_name old)).
