(** Tables without changes (C117) *)
From Coq Require Import String Ascii List NArith Bool.
From Verif.Model Require Import GoString Util Octopus DiffCore Diff Liquibase.
From Verif.Spec Require Import DiffSpec UnchangedSpec.
From Verif.Proofs Require Import Unchanged UnchangedCases.
Import ListNotations.
Local Open Scope string_scope.

(** C117. Selected tables that both schemas have unchanged can be left out of both: the comparison has the same results,
    with the same ids, whatever else is in the schemas and wherever the tables stand. *)
Theorem C117_report_partial : forall o from to from' to' css, leave_out (do_filter o) from to from' to' ->
  may_report o from to css <-> may_report o from' to' css.
Proof. exact report_same. Qed.
Print Assumptions C117_report_partial.

(** the same of the change logs *)
Theorem C117_log_partial : forall fk o from to from' to' css, leave_out (lo_filter o) from to from' to' ->
  may_log fk o from to css <-> may_log fk o from' to' css.
Proof. exact log_same. Qed.
Print Assumptions C117_log_partial.

Example C117_case : leave_out None nx_from nx_to (nx_s [nx_users 20; nx_logs]) (nx_s [nx_lines; nx_users 30]).
Proof. exact nx_leave. Qed.
Example C117_report_case :
  option_map (map (fun cs => (cs_id cs, map (fun ch => t_name (dep_table ch)) (cs_changes cs))))
    (get_diff (fun l => l) (fun _ l => l) nx_o nx_from nx_to) = Some [("1-1", ["users"]); ("2-1", ["logs"])].
Proof. exact nx_case. Qed.
Example C117_log_case :
  option_map (map lq_changes) (lq_diff (fun _ => true) (fun l => l) (fun _ l => l) nx_lo nx_from nx_to) =
  Some [[LqModifyDataType "users" "name" "varchar(30)"]; [LqRenameTable "lines" "logs"]].
Proof. exact nx_lq_case. Qed.

(** Not of tables that the groups leave out: such a table is dropped although it is the same in both schemas. *)
Theorem C117_filtered_refuted : exists o sf f1 st n1 t css,
  ~ In (t_name t) (map t_name f1) /\ ~ In (t_name t) (map t_name n1) /\
  may_report o (with_one sf f1 t []) (with_one st n1 t []) css /\ In (DropTable t) (all_changes css) /\
  forall css', may_report o (without sf f1 []) (without st n1 []) css' -> css' = [].
Proof. exact filtered_matters. Qed.
Print Assumptions C117_filtered_refuted.
