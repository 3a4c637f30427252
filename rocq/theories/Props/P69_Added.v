(** Columns added to tables: comparisons (C146) *)
From Coq Require Import String Ascii List NArith Bool Sorting.Permutation.
From Verif.Model Require Import GoString Util Octopus DiffCore Diff Liquibase.
From Verif.Spec Require Import DiffSpec LocalSpec WidenSpec WidenSources WidenDiff.
From Verif.Proofs Require Import WidenDiffProofs WidenDiffCases.
Import ListNotations.
Local Open Scope string_scope.

(** C146. If the only difference of two schemas are columns added to tables, none of them part of a key or unique, a comparison
    reports these columns and nothing else. False of the report and the Flyway script: *)
Theorem C146_report_refuted : exists s s', widened s s' /\ distinct_names s' /\
  Forall2 key_kept (s_tables s) (s_tables s') /\ Forall2 unique_kept (s_tables s) (s_tables s') /\
  (exists t t', In (t, t') (combine (s_tables s) (s_tables s')) /\ new_names t t' <> []) /\
  get_diff (fun l => l) (fun _ l => l) wf_opt s s' = Some [].
Proof. exact report_not. Qed.
Print Assumptions C146_report_refuted.

(** they have nothing at all, whatever the columns; *)
Theorem C146_report_partial : forall ordT ordC o s s', iteration_order ordT -> (forall i, iteration_order (ordC i)) ->
  widened s s' -> distinct_names s' -> (forall t, In t (s_tables s') -> selected (do_filter o) t) ->
  Forall2 key_kept (s_tables s) (s_tables s') -> Forall2 unique_kept (s_tables s) (s_tables s') ->
  get_diff ordT ordC o s s' = Some [].
Proof. exact report_silent. Qed.
Print Assumptions C146_report_partial.

(** the change log has exactly one change set for each table that got columns, in the order of the tables and numbered like
    them, with the new columns in their order and at their places. *)
Theorem C146_log_partial : forall float ordT ordC o s s' css, iteration_order ordT -> (forall i, iteration_order (ordC i)) ->
  widened s s' -> distinct_names s' -> (forall t, In t (s_tables s') -> selected (lo_filter o) t) ->
  Forall2 key_kept (s_tables s) (s_tables s') -> Forall2 unique_kept (s_tables s) (s_tables s') ->
  lq_diff float ordT ordC o s s' = Some css ->
  only_new (if String.eqb (lo_author o) "" then s_author s' else lo_author o) 0 (combine (s_tables s) (s_tables s')) css.
Proof. exact log_only_new. Qed.
Print Assumptions C146_log_partial.

Example C146_case : widened wf_old wf_new /\ distinct_names wf_new /\ Forall2 key_kept (s_tables wf_old) (s_tables wf_new) /\
  Forall2 unique_kept (s_tables wf_old) (s_tables wf_new) /\ (forall t, In t (s_tables wf_new) -> selected (lo_filter wf_log) t) /\
  exists css, lq_diff (fun _ => true) (fun l => l) (fun _ l => l) wf_log wf_old wf_new = Some css /\
    map lq_id css = ["1-1"; "2-1"] /\
    flat_map lq_changes css =
      [LqAddColumn "group" [mkLqColumn "boss" "bigint" None None "" no_default "id"];
       LqAddColumn "user" [mkLqColumn "mail" "varchar(40)" None None "" no_default "id"]].
Proof.
  refine (conj wf_widened (conj wf_distinct (conj wf_key (conj wf_unique (conj (fun _ _ => I) _))))).
  eexists. split; [vm_compute; reflexivity|]. split; reflexivity.
Qed.
