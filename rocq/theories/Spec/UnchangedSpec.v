(** Tables that a comparison of two schemas has nothing to say about (C117) *)
From Coq Require Import String List.
From Verif.Model Require Import Octopus DiffCore Diff Liquibase.
From Verif.Spec Require Import DiffSpec.
Import ListNotations.

(** two versions of a table that agree in name, description and columns; the group, the name of the class and the
    indices may differ *)
Definition unchanged (old t : table) : Prop :=
  t_name old = t_name t /\ t_desc old = t_desc t /\ t_cols old = t_cols t.

(** the results that the comparisons can have, whatever the order in which Go iterates over its maps *)
Definition may_report (o : diff_option) (from to : schema) (css : list cset) : Prop :=
  exists ordT ordC, iteration_order ordT /\ (forall i, iteration_order (ordC i)) /\
    get_diff ordT ordC o from to = Some css.
Definition may_log (float_ok : string -> bool) (o : lq_option) (from to : schema) (css : list lq_cset) : Prop :=
  exists ordT ordC, iteration_order ordT /\ (forall i, iteration_order (ordC i)) /\
    lq_diff float_ok ordT ordC o from to = Some css.

(** the schema with one more table, [t], after the tables [l1] *)
Definition with_one (s : schema) (l1 : list table) (t : table) (l2 : list table) : schema :=
  mkSchema (s_author s) (s_name s) (s_version s) (l1 ++ t :: l2).
Definition without (s : schema) (l1 l2 : list table) : schema :=
  mkSchema (s_author s) (s_name s) (s_version s) (l1 ++ l2).

(** some of the selected tables that both schemas have unchanged are left out: from the first two schemas the last two
    remain *)
Inductive leave_out (f : option (table -> bool)) : schema -> schema -> schema -> schema -> Prop :=
| leave_none : forall from to, leave_out f from to from to
| leave_one : forall sf f1 old f2 st n1 t n2 from to,
    unchanged old t -> NoDup (map c_name (t_cols t)) -> selected f t ->
    ~ In (t_name t) (map t_name (f1 ++ f2)) -> ~ In (t_name t) (map t_name (n1 ++ n2)) ->
    leave_out f (without sf f1 f2) (without st n1 n2) from to ->
    leave_out f (with_one sf f1 old f2) (with_one st n1 t n2) from to.
