(** Empty lists in files that are compared (C148) *)
From Coq Require Import String Ascii List NArith Bool.
From Verif.Model Require Import GoString Util Octopus DiffCore Diff Liquibase Json NilValues.
From Verif.Spec Require Import NilListSpec.
From Verif.Proofs Require Import WidenDiffCases NilListProofs NilSaved NilCases.
Import ListNotations.
Local Open Scope string_scope.

(** C148. Whether a file has an empty list or leaves it out makes no difference for a comparison. False: both files for
    the new schema below mean the same, but with one of them a renamed table is dropped and created anew. *)
Theorem C148_refuted : exists old new s s',
  load_schema (fun l => l) true old = Some s /\ load_schema (fun l => l) true (one_table "member" []) = Some s' /\
  load_schema (fun l => l) true new = Some s' /\
  get_diff_memory (nils_at (one_table "member" [])) (nils_of old s) (fun l => l) (fun _ l => l) wf_opt s s' =
    Some [mkCS "1-1" "" [RenameTable (nv_table "user") (nv_table "member")]] /\
  get_diff_memory (nils_at new) (nils_of old s) (fun l => l) (fun _ l => l) wf_opt s s' =
    Some [mkCS "1" "" [DropTable (nv_table "user")]; mkCS "2" "" [CreateTable (nv_table "member")]] /\
  exists css, lq_diff_memory (fun _ => true) (nils_at new) (nils_of old s) (fun l => l) (fun _ l => l) wf_log s s' = Some css /\
    In (LqDropTable "user") (flat_map lq_changes css).
Proof. exact renamed_lost. Qed.
Print Assumptions C148_refuted.

(** True if the tables that could be renamed ones have their empty lists written alike; any other table may differ. *)
Theorem C148_report_partial : forall new_nils old_nils ordT ordC o from to, agree new_nils old_nils from to ->
  get_diff_memory new_nils old_nils ordT ordC o from to = get_diff ordT ordC o from to.
Proof. exact report_memory. Qed.
Print Assumptions C148_report_partial.
Theorem C148_log_partial : forall float new_nils old_nils ordT ordC o from to, agree new_nils old_nils from to ->
  lq_diff_memory float new_nils old_nils ordT ordC o from to = lq_diff float ordT ordC o from to.
Proof. exact log_memory. Qed.
Print Assumptions C148_log_partial.

(** Files written by the program are so. *)
Theorem C148_saved_report_partial : forall ordT ordC o from to, NoDup (map t_name (s_tables from)) ->
  get_diff_memory (nils_at (enc_schema to)) (nils_of (enc_schema from) from) ordT ordC o from to = get_diff ordT ordC o from to.
Proof. exact saved_report. Qed.
Print Assumptions C148_saved_report_partial.
Theorem C148_saved_log_partial : forall float ordT ordC o from to, NoDup (map t_name (s_tables from)) ->
  lq_diff_memory float (nils_at (enc_schema to)) (nils_of (enc_schema from) from) ordT ordC o from to = lq_diff float ordT ordC o from to.
Proof. exact saved_log. Qed.
Print Assumptions C148_saved_log_partial.

(** Both files have the empty list, and a table is renamed. *)
Example C148_case : agree (nils_at (one_table "member" nv_empty)) (nils_of (one_table "user" nv_empty) (nv_schema "user"))
    (nv_schema "user") (nv_schema "member") /\
  table_nils (JObj [("columns", JArr [JObj nv_empty; JObj [("values", JNull)]; JObj []])]) = mkNils false [false; true; true] /\
  get_diff_memory (nils_at (one_table "member" nv_empty)) (nils_of (one_table "user" nv_empty) (nv_schema "user"))
    (fun l => l) (fun _ l => l) wf_opt (nv_schema "user") (nv_schema "member") =
  Some [mkCS "1-1" "" [RenameTable (nv_table "user") (nv_table "member")]].
Proof.
  refine (conj _ (conj eq_refl eq_refl)). intros [|i] t old T [<-|[]] _ _; [|destruct i; discriminate T].
  injection T as <-. split; [discriminate|]. intros [|i] c C _; [reflexivity|destruct i; discriminate C].
Qed.
(** The file that the program writes has no empty list. *)
Example C148_saved_case : NoDup (map t_name (s_tables (nv_schema "user"))) /\
  nils_at (enc_schema (nv_schema "user")) 0 = mkNils false [true] /\
  nil_places (nv_table "user", mkNils false [true]) = [true] /\ nil_places (nv_table "user", mkNils false [false]) = [false].
Proof. split; [repeat constructor; intros []|]. repeat split. Qed.
