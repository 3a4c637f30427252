(** The Liquibase diff beside the diff of the other commands *)
From Coq Require Import String Ascii List NArith Bool.
From Verif.Model Require Import GoString Octopus DiffCore Diff Liquibase.
From Verif.Spec Require Import Order OctopusSpec DiffSpec LiquibaseSpec AgreeSpec.
From Verif.Proofs Require Import ReverseCases Agree AgreeCases.
Import ListNotations.
Local Open Scope string_scope.

(** C115. False as stated: only the change log has added columns, *)
Theorem C115_added_refuted : forall float_ok,
  gx_changes vx_one vx_two = Some [] /\
  gx_log float_ok vx_one vx_two = Some [LqAddColumn "t" [mkLqColumn "b" "varchar(40)" None None "" no_default "a"]].
Proof. exact added_only_in_log. Qed.
Print Assumptions C115_added_refuted.

(** and drops a constraint before the first unique column is made; *)
Theorem C115_constraint_refuted : forall float_ok,
  gx_changes (gx_of gx_plain) (gx_of gx_unique) = Some [CreateUniqueConstraint "t_uq" (vx_table "t" "" [gx_unique])] /\
  gx_log float_ok (gx_of gx_plain) (gx_of gx_unique) = Some [LqDropUniqueConstraint "t" "t_uq"; LqAddUniqueConstraint "t" "k" "t_uq"].
Proof. exact drop_only_in_log. Qed.
Print Assumptions C115_constraint_refuted.

(** only the other diff reports that auto-increment is turned off, *)
Theorem C115_autoinc_refuted : forall float_ok,
  gx_changes (gx_of (gx_counter true)) (gx_of (gx_counter false)) =
    Some [SetAutoIncrement (vx_table "t" "" [gx_counter false]) (gx_counter false)] /\
  gx_log float_ok (gx_of (gx_counter true)) (gx_of (gx_counter false)) = Some [].
Proof. exact autoinc_not_in_log. Qed.
Print Assumptions C115_autoinc_refuted.

(** and default values that are not numbers end the change log with an error. *)
Theorem C115_error_refuted :
  gx_changes (gx_of (gx_number "1")) (gx_of (gx_number "one")) =
    Some [SetDefaultValue (vx_table "t" "" [gx_number "one"]) (gx_number "one")] /\
  gx_log (string_forallb is_digit) (gx_of (gx_number "1")) (gx_of (gx_number "one")) = None.
Proof. exact log_fails. Qed.
Print Assumptions C115_error_refuted.

(** Partial: apart from these the change log tells the changes of the other diff, one by one and in the same order,
    and nothing else. *)
Theorem C115_partial : forall float_ok ordT ordC o lo from to css',
  iteration_order ordT -> NoDup (map t_name (s_tables from)) ->
  do_filter o = lo_filter lo -> do_suffix o = lo_suffix lo -> do_comments o = lo_comments lo ->
  lq_diff float_ok ordT ordC lo from to = Some css' ->
  exists css, get_diff ordT ordC o from to = Some css /\ tells_all from (lq_all css') (all_changes css).
Proof. exact diffs_agree. Qed.
Print Assumptions C115_partial.

Example C115_case : forall float_ok,
  NoDup (map t_name (s_tables vx_from)) /\
  exists log chs, gx_log float_ok vx_from vx_to = Some log /\ gx_changes vx_from vx_to = Some chs /\ tells_all vx_from log chs /\
  List.length log = 16 /\ filter (in_both vx_from) log <> log /\
  map vx_kind (filter in_log chs) =
    ["type of user.age from int to long"; "not null user.age"; "default user.age 1";
     "rename user.a to c"; "rename user.b to d"; "key of user"; "create constraint user_uq"; "drop old";
     "drop constraint first_uq"; "rename first to one"; "create constraint one_uq";
     "drop constraint second_uq"; "rename second to two"; "create constraint two_uq"; "create new"].
Proof. exact agree_case. Qed.
