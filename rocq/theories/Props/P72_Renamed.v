(** Tables that get other names (C149) *)
From Coq Require Import String Ascii List NArith Bool Sorting.Permutation.
From Verif.Model Require Import GoString Util Octopus DiffCore Diff Liquibase.
From Verif.Spec Require Import DiffSpec RenameSpec.
From Verif.Proofs Require Import WidenCases WidenDiffCases RenameProofs RenameCases.
Import ListNotations.
Local Open Scope string_scope.

(** C149. If tables have got other names and nothing else has changed, a comparison renames these tables, each to its new
    name, and does nothing else. False if two of the renamed tables have the same columns, *)
Theorem C149_pairs_refuted : exists ren from to css, only_renamed ren from to /\ fresh_names ren from /\ distinct_names from /\ distinct_names to /\
  get_diff (fun l => l) (fun _ l => l) wf_opt from to = Some css /\
  exists t u, In (RenameTable t u) (all_changes css) /\ In t (s_tables from) /\ u <> renamed_by ren t.
Proof. exact wrong_pairs. Qed.
Print Assumptions C149_pairs_refuted.
(** and if a table gets the old name of another one: a table is dropped. *)
Theorem C149_names_refuted : exists ren from to css, only_renamed ren from to /\ told_apart ren from /\ distinct_names from /\ distinct_names to /\
  get_diff (fun l => l) (fun _ l => l) wf_opt from to = Some css /\ exists t, In (DropTable t) (all_changes css).
Proof. exact lost_table. Qed.
Print Assumptions C149_names_refuted.

(** True otherwise, whatever the order of the tables. Unique constraints, named after the table, are made anew. *)
Theorem C149_report_partial : forall ren ordT ordC o from to, iteration_order ordT -> (forall i, iteration_order (ordC i)) ->
  only_renamed ren from to -> fresh_names ren from -> told_apart ren from -> distinct_names from -> NoDup (map t_name (s_tables to)) ->
  (forall t, In t (s_tables to) -> selected (do_filter o) t) ->
  exists css olds, get_diff ordT ordC o from to = Some css /\ Permutation olds (filter (moved ren) (s_tables from)) /\
    all_changes css = flat_map (fun t => renaming (do_suffix o) t (renamed_by ren t)) olds.
Proof. exact report_renamed. Qed.
Print Assumptions C149_report_partial.
Theorem C149_log_partial : forall float ren ordT ordC o from to, iteration_order ordT -> (forall i, iteration_order (ordC i)) ->
  only_renamed ren from to -> fresh_names ren from -> told_apart ren from -> distinct_names from -> NoDup (map t_name (s_tables to)) ->
  (forall t, In t (s_tables to) -> selected (lo_filter o) t) ->
  exists css olds chs, lq_diff float ordT ordC o from to = Some css /\ Permutation olds (filter (moved ren) (s_tables from)) /\
    flat_map lq_changes css = concat chs /\ Forall2 (fun t => rename_log (lo_suffix o) t (renamed_by ren t)) olds chs.
Proof. exact log_renamed. Qed.
Print Assumptions C149_log_partial.

(** Two of three tables are renamed; one has a unique column, and another comes first. *)
Definition rn_unique : column := mkCol "code" "int32" "" 0 0 false false true false "" "" [] None.
Definition rn_old : schema := rn_schema [rn_table "a" "" [wd_id; rn_unique]; rn_table "b" "" [wd_id; rn_name]; rn_table "c" "" [wd_id; wd_mail]].
Definition rn_new : schema := rn_schema [rn_table "c" "" [wd_id; wd_mail]; rn_table "p" "" [wd_id; rn_name]; rn_table "q" "" [wd_id; rn_unique]].
Definition rn_names (n : string) : string := if String.eqb n "a" then "q" else if String.eqb n "b" then "p" else n.
Example C149_case : only_renamed rn_names rn_old rn_new /\ fresh_names rn_names rn_old /\ told_apart rn_names rn_old /\
  distinct_names rn_old /\ NoDup (map t_name (s_tables rn_new)) /\
  map t_name (filter (moved rn_names) (s_tables rn_old)) = ["a"; "b"] /\
  exists css, lq_diff (fun _ => true) (fun l => l) (fun _ l => l) wf_log rn_old rn_new = Some css /\
    flat_map lq_changes css = [LqRenameTable "p" "b"; LqDropUniqueConstraint "a" "a_uq"; LqRenameTable "q" "a"; LqAddUniqueConstraint "q" "code" "q_uq"].
Proof.
  refine (conj _ (conj _ (conj _ (conj _ (conj _ (conj eq_refl _)))))).
  - exact (Permutation_sym (Permutation_rev (map (renamed_by rn_names) (s_tables rn_old)))).
  - intros t [<-|[<-|[<-|[]]]] M; try discriminate M; intros [E|[E|[E|[]]]]; discriminate E.
  - intros t u [<-|[<-|[<-|[]]]] [<-|[<-|[<-|[]]]] _ _ E; try reflexivity; discriminate E.
  - split; [distinct|]. intros t [<-|[<-|[<-|[]]]]; distinct.
  - distinct.
  - eexists. split; [vm_compute; reflexivity|]. reflexivity.
Qed.
