(** Columns that get other names (C150) *)
From Coq Require Import String Ascii List NArith Bool Sorting.Permutation.
From Verif.Model Require Import GoString Util Octopus DiffCore Diff Liquibase.
From Verif.Spec Require Import DiffSpec RenameColumns.
From Verif.Proofs Require Import WidenDiffCases RenameColumnProofs RenameColumnCases.
Import ListNotations.
Local Open Scope string_scope.

(** C150. If columns have got other names and nothing else has changed, a comparison renames these columns, each to its new
    name, makes the keys and unique constraints they are in anew, and does nothing else. False if two of the renamed columns of
    a table are alike, which they can be although their values differ, *)
Theorem C150_pairs_refuted : exists ren from to css,
  Forall2 (columns_renamed ren) (s_tables from) (s_tables to) /\ (forall t, In t (s_tables from) -> fresh_columns ren t) /\
  distinct_names from /\ distinct_names to /\
  (forall t c d, In t (s_tables from) -> In c (t_cols t) -> In d (t_cols t) -> c_values c = c_values d -> c = d) /\
  get_diff (fun l => l) (fun _ l => l) wf_opt from to = Some css /\
  exists t c d, In (RenameColumn t c d) (all_changes css) /\ c_values c <> c_values d /\ d <> column_by ren c.
Proof. exact wrong_columns. Qed.
Print Assumptions C150_pairs_refuted.
(** and if a column gets the old name of another one: a column is dropped. *)
Theorem C150_names_refuted : exists ren from to css,
  Forall2 (columns_renamed ren) (s_tables from) (s_tables to) /\ (forall t, In t (s_tables from) -> columns_apart true ren t) /\
  distinct_names from /\ distinct_names to /\
  get_diff (fun l => l) (fun _ l => l) wf_opt from to = Some css /\ exists t, In (DropColumn t "a") (all_changes css).
Proof. exact lost_column. Qed.
Print Assumptions C150_names_refuted.

(** True otherwise, whatever the order of the columns; [rens] has the renaming of each table. *)
Theorem C150_report_partial : forall rens ordT ordC o from to, iteration_order ordT -> (forall i, iteration_order (ordC i)) ->
  Forall2 (fun t t' => columns_renamed (rens (t_name t)) t t') (s_tables from) (s_tables to) ->
  (forall t, In t (s_tables from) -> fresh_columns (rens (t_name t)) t /\ columns_apart (do_comments o) (rens (t_name t)) t) ->
  distinct_names from -> distinct_names to -> (forall t, In t (s_tables to) -> selected (do_filter o) t) ->
  exists css chs, get_diff ordT ordC o from to = Some css /\ all_changes css = concat chs /\
    Forall2 (fun p => table_renaming (do_suffix o) (rens (t_name (fst p))) (fst p) (snd p)) (combine (s_tables from) (s_tables to)) chs.
Proof. exact report_columns. Qed.
Print Assumptions C150_report_partial.
(** Liquibase adds the constraint NOT NULL of a renamed column again. *)
Theorem C150_log_partial : forall float rens ordT ordC o from to, iteration_order ordT -> (forall i, iteration_order (ordC i)) ->
  Forall2 (fun t t' => columns_renamed (rens (t_name t)) t t') (s_tables from) (s_tables to) ->
  (forall t, In t (s_tables from) -> fresh_columns (rens (t_name t)) t /\ columns_apart (lo_comments o) (rens (t_name t)) t) ->
  distinct_names from -> distinct_names to -> (forall t, In t (s_tables to) -> selected (lo_filter o) t) ->
  exists css chs, lq_diff float ordT ordC o from to = Some css /\ flat_map lq_changes css = concat chs /\
    Forall2 (fun p => log_renaming (lo_suffix o) (rens (t_name (fst p))) (fst p) (snd p)) (combine (s_tables from) (s_tables to)) chs.
Proof. exact log_columns. Qed.
Print Assumptions C150_log_partial.

(** A column of the key, a unique one and a plain one are renamed; the first column of the second table keeps its name. *)
Definition rc_before : schema := rc_schema [rc_table "box" [rc_number "id" true false; rc_number "code" false true];
  rc_table "item" [rc_number "id" true false; rc_text "note"]].
Definition rc_after : schema := rc_schema [rc_table "box" [rc_number "nr" true false; rc_number "mark" false true];
  rc_table "item" [rc_number "id" true false; rc_text "text"]].
Definition rc_rens (t n : string) : string :=
  if String.eqb t "box" then (if String.eqb n "id" then "nr" else "mark") else if String.eqb n "note" then "text" else n.
Example C150_case : Forall2 (fun t t' => columns_renamed (rc_rens (t_name t)) t t') (s_tables rc_before) (s_tables rc_after) /\
  (forall t, In t (s_tables rc_before) -> fresh_columns (rc_rens (t_name t)) t /\ columns_apart true (rc_rens (t_name t)) t) /\
  distinct_names rc_before /\ distinct_names rc_after /\
  exists css, lq_diff (fun _ => true) (fun l => l) (fun _ l => l) wf_log rc_before rc_after = Some css /\
    flat_map lq_changes css = [LqDropUniqueConstraint "box" "box_uq";
      LqRenameColumn "box" "nr" "id" "bigint"; LqAddNotNullConstraint "box" "nr" "bigint" "";
      LqRenameColumn "box" "mark" "code" "bigint"; LqAddNotNullConstraint "box" "mark" "bigint" "";
      LqDropPrimaryKey "box"; LqAddPrimaryKey "box" "nr"; LqAddUniqueConstraint "box" "mark" "box_uq";
      LqRenameColumn "item" "text" "note" "varchar(40)"].
Proof.
  refine (conj _ (conj _ (conj _ (conj _ _)))).
  - constructor; [|constructor; [|constructor]]; (split; [reflexivity|]); (split; [reflexivity|]); apply Permutation_refl.
  - intros t [<-|[<-|[]]]; split.
    + intros c [<-|[<-|[]]] _ [E|[E|[]]]; discriminate E.
    + intros c d [<-|[<-|[]]] [<-|[<-|[]]] _ _ E; try reflexivity; exfalso; unfold alike in E; cbn in E; intuition discriminate.
    + intros c [<-|[<-|[]]] M; try discriminate M; intros [E|[E|[]]]; discriminate E.
    + intros c d [<-|[<-|[]]] [<-|[<-|[]]] _ _ E; try reflexivity; exfalso; unfold alike in E; cbn in E; intuition discriminate.
  - split; [distinct|]. intros t [<-|[<-|[]]]; distinct.
  - split; [distinct|]. intros t [<-|[<-|[]]]; distinct.
  - eexists. split; [vm_compute; reflexivity|]. reflexivity.
Qed.
