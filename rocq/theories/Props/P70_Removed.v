(** Columns removed from tables: comparisons (C147) *)
From Coq Require Import String Ascii List NArith Bool Sorting.Permutation.
From Verif.Model Require Import GoString Util Octopus DiffCore Diff Mysql DiffWriters Liquibase.
From Verif.Spec Require Import DiffSpec LocalSpec WidenSpec WidenSources WidenDiff NarrowDiff.
From Verif.Proofs Require Import WidenCases WidenDiffCases NarrowDiffProofs NarrowDiffCases.
Import ListNotations.
Local Open Scope string_scope.

(** C147. If the only difference of two schemas are columns removed from tables, none of them part of a key or unique, a
    comparison drops these columns and does nothing else: one change set for each column, numbered table by table. The old
    schema is the wider one. *)
Theorem C147_report_partial : forall ordT ordC o s s', iteration_order ordT -> (forall i, iteration_order (ordC i)) ->
  widened s s' -> distinct_names s' -> (forall t, In t (s_tables s) -> selected (do_filter o) t) ->
  Forall2 key_kept (s_tables s) (s_tables s') -> Forall2 unique_kept (s_tables s) (s_tables s') ->
  exists css, get_diff ordT ordC o s' s = Some css /\
    only_gone (fun t id n => mkCS id (if String.eqb (do_author o) "" then s_author s else do_author o) [DropColumn t n]) 0
      (combine (s_tables s) (s_tables s')) css.
Proof. exact report_gone. Qed.
Print Assumptions C147_report_partial.

Theorem C147_log_partial : forall float ordT ordC o s s', iteration_order ordT -> (forall i, iteration_order (ordC i)) ->
  widened s s' -> distinct_names s' -> (forall t, In t (s_tables s) -> selected (lo_filter o) t) ->
  Forall2 key_kept (s_tables s) (s_tables s') -> Forall2 unique_kept (s_tables s) (s_tables s') ->
  exists css, lq_diff float ordT ordC o s' s = Some css /\
    only_gone (fun t id n => mkLqCS id (if String.eqb (lo_author o) "" then s_author s else lo_author o) false [LqDropColumn (t_name t) n]) 0
      (combine (s_tables s) (s_tables s')) css.
Proof. exact log_gone. Qed.
Print Assumptions C147_log_partial.

(** False of the Flyway script, which is blank although columns are to be dropped, *)
Theorem C147_script_refuted : exists s s' css, widened s s' /\ distinct_names s' /\
  Forall2 key_kept (s_tables s) (s_tables s') /\ Forall2 unique_kept (s_tables s) (s_tables s') /\
  get_diff (fun l => l) (fun _ l => l) wf_opt s' s = Some css /\
  (exists t, In (DropColumn t "mail") (all_changes css)) /\ flyway_write (do_suffix wf_opt) css = newline ++ newline.
Proof. exact script_not. Qed.
Print Assumptions C147_script_refuted.
(** whatever the columns. *)
Theorem C147_script_partial : forall ordT ordC o s s' css, iteration_order ordT -> (forall i, iteration_order (ordC i)) ->
  widened s s' -> distinct_names s' -> (forall t, In t (s_tables s) -> selected (do_filter o) t) ->
  Forall2 key_kept (s_tables s) (s_tables s') -> Forall2 unique_kept (s_tables s) (s_tables s') ->
  get_diff ordT ordC o s' s = Some css ->
  forall c, In c (list_ascii_of_string (flyway_write (do_suffix o) css)) -> c = "010"%char.
Proof. exact script_blank. Qed.
Print Assumptions C147_script_partial.

(** The column "mail" and two others are removed. *)
Definition ng_old : schema := wd_schema [wd_id; wd_boss] [wd_id; wd_mail; wd_boss; wd_name].
Example C147_case : widened wf_old ng_old /\ distinct_names ng_old /\ Forall2 key_kept (s_tables wf_old) (s_tables ng_old) /\
  Forall2 unique_kept (s_tables wf_old) (s_tables ng_old) /\ (forall t, In t (s_tables wf_old) -> selected (lo_filter wf_log) t) /\
  exists css, lq_diff (fun _ => true) (fun l => l) (fun _ l => l) wf_log ng_old wf_old = Some css /\
    map lq_id css = ["1-1"; "2-1"; "2-2"] /\
    flat_map lq_changes css = [LqDropColumn "group" "boss"; LqDropColumn "user" "boss"; LqDropColumn "user" "mail"].
Proof.
  refine (conj _ (conj _ (conj _ (conj _ (conj (fun _ _ => I) _))))).
  - apply wd_widened; added.
  - split; [distinct|]. intros t [<-|[<-|[]]]; distinct.
  - constructor; [|constructor; [|constructor]]; reflexivity.
  - constructor; [|constructor; [|constructor]]; reflexivity.
  - eexists. split; [vm_compute; reflexivity|]. split; reflexivity.
Qed.
