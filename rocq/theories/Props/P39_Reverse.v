(** Comparisons in both directions *)
From Coq Require Import String Ascii List NArith Bool.
From Verif.Model Require Import GoString Octopus DiffCore Diff.
From Verif.Spec Require Import Order OctopusSpec DiffSpec ReverseSpec.
From Verif.Proofs Require Import ReverseProofs ReverseCases.
Import ListNotations.
Local Open Scope string_scope.

(** C114. False as stated: a dropped column has no opposite, since added columns are not reported (C20), *)
Theorem C114_columns_refuted : exists o from to t k, one_way o from to (DropColumn t k).
Proof. exact (ex_intro _ vx_opt drop_one_way). Qed.
Print Assumptions C114_columns_refuted.

(** and of two tables, or columns, that are alike each may be renamed to one and back from the other. *)
Theorem C114_renames_refuted : exists o from to a b, one_way o from to (RenameTable a b).
Proof. exact (ex_intro _ vx_opt rename_one_way). Qed.
Print Assumptions C114_renames_refuted.

Theorem C114_column_renames_refuted : exists o from to t c d, one_way o from to (RenameColumn t c d).
Proof. exact (ex_intro _ vx_opt rename_column_one_way). Qed.
Print Assumptions C114_column_renames_refuted.

(** Partial: for whole schemas whose new tables and columns that are alike are listed by name, every change but
    a dropped column is taken back. *)
Theorem C114_partial : forall ordT ordT' ordC ordC' o from to css css',
  iteration_order ordT -> iteration_order ordT' -> (forall i, iteration_order (ordC i)) -> (forall i, iteration_order (ordC' i)) ->
  distinct_names from -> distinct_names to ->
  (forall t, In t (s_tables from) -> selected (do_filter o) t) -> (forall t, In t (s_tables to) -> selected (do_filter o) t) ->
  orderly (do_comments o) from to -> orderly (do_comments o) to from ->
  get_diff ordT ordC o from to = Some css -> get_diff ordT' ordC' o to from = Some css' ->
  forall ch, In ch (all_changes css) -> (forall t k, ch <> DropColumn t k) ->
  exists ch', In ch' (all_changes css') /\ opposite ch ch'.
Proof. exact reversed. Qed.
Print Assumptions C114_partial.

Example C114_case :
  orderly true vx_from vx_to /\ orderly true vx_to vx_from /\ distinct_names vx_from /\ distinct_names vx_to /\
  map vx_kind (vx_changes vx_from vx_to) =
    ["type of user.age from int to long"; "not null user.age"; "default user.age 1";
     "rename user.a to c"; "rename user.b to d"; "key of user"; "create constraint user_uq"; "drop old";
     "drop constraint first_uq"; "rename first to one"; "create constraint one_uq";
     "drop constraint second_uq"; "rename second to two"; "create constraint two_uq"; "create new"] /\
  map vx_kind (vx_changes vx_to vx_from) =
    ["type of user.age from long to int"; "null user.age"; "default user.age 0"; "drop constraint user_uq";
     "rename user.c to a"; "rename user.d to b"; "key of user"; "drop new";
     "drop constraint one_uq"; "rename one to first"; "create constraint first_uq";
     "drop constraint two_uq"; "rename two to second"; "create constraint second_uq"; "create old"].
Proof. exact reverse_case. Qed.
