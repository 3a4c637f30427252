(** Columns that get other names (C150) *)
From Coq Require Import String Ascii List NArith Bool Sorting.Permutation.
From Verif.Model Require Import GoString Util Octopus DiffCore Diff Liquibase.
From Verif.Spec Require Import DiffSpec RenameColumns.
From Verif.Proofs Require Import WidenDiffCases.
Import ListNotations.
Local Open Scope string_scope.

Definition rc_text (name : string) : column := mkCol name "varchar" "" 40 0 false false false false "" "" [] None.
Definition rc_set (name : string) (values : list string) : column := mkCol name "enum" "" 0 0 false false false false "" "" values None.
Definition rc_number (name : string) (key unique : bool) : column := mkCol name "int64" "" 0 0 true key unique false "" "" [] None.
Definition rc_table (name : string) (cols : list column) : table := mkTable name cols "" "" "" [].
Definition rc_schema (ts : list table) : schema := mkSchema "" "" "" ts.

(** two columns that differ in their values only *)
Definition rc_old : schema := rc_schema [rc_table "shirt" [rc_set "a" ["red"; "blue"]; rc_set "b" ["large"; "small"]]].
Definition rc_new : schema := rc_schema [rc_table "shirt" [rc_set "size" ["large"; "small"]; rc_set "zcolour" ["red"; "blue"]]].
Definition rc_names (n : string) : string := if String.eqb n "a" then "zcolour" else if String.eqb n "b" then "size" else n.
Lemma wrong_columns : exists ren from to css,
  Forall2 (columns_renamed ren) (s_tables from) (s_tables to) /\ (forall t, In t (s_tables from) -> fresh_columns ren t) /\
  distinct_names from /\ distinct_names to /\
  (forall t c d, In t (s_tables from) -> In c (t_cols t) -> In d (t_cols t) -> c_values c = c_values d -> c = d) /\
  get_diff (fun l => l) (fun _ l => l) wf_opt from to = Some css /\
  exists t c d, In (RenameColumn t c d) (all_changes css) /\ c_values c <> c_values d /\ d <> column_by ren c.
Proof.
  exists rc_names, rc_old, rc_new. eexists. refine (conj _ (conj _ (conj _ (conj _ (conj _ (conj _ _)))))).
  - constructor; [|constructor]. split; [reflexivity|]. split; [reflexivity|]. apply perm_swap.
  - intros t [<-|[]] c [<-|[<-|[]]] _ [E|[E|[]]]; discriminate E.
  - split; [distinct|]. intros t [<-|[]]; distinct.
  - split; [distinct|]. intros t [<-|[]]; distinct.
  - intros t c d [<-|[]] [<-|[<-|[]]] [<-|[<-|[]]] E; try reflexivity; discriminate E.
  - vm_compute. reflexivity.
  - eexists. exists (rc_set "a" ["red"; "blue"]), (rc_set "size" ["large"; "small"]). split; [left; reflexivity|]. split; discriminate.
Qed.
(** a column that gets the old name of another *)
Definition rc_chain : schema := rc_schema [rc_table "item" [rc_text "a"; rc_number "b" false false]].
Definition rc_chain' : schema := rc_schema [rc_table "item" [rc_text "b"; rc_number "c" false false]].
Definition rc_next (n : string) : string := if String.eqb n "a" then "b" else if String.eqb n "b" then "c" else n.
Lemma lost_column : exists ren from to css,
  Forall2 (columns_renamed ren) (s_tables from) (s_tables to) /\ (forall t, In t (s_tables from) -> columns_apart true ren t) /\
  distinct_names from /\ distinct_names to /\
  get_diff (fun l => l) (fun _ l => l) wf_opt from to = Some css /\ exists t, In (DropColumn t "a") (all_changes css).
Proof.
  exists rc_next, rc_chain, rc_chain'. eexists. refine (conj _ (conj _ (conj _ (conj _ (conj _ _))))).
  - constructor; [|constructor]. split; [reflexivity|]. split; [reflexivity|]. apply Permutation_refl.
  - intros t [<-|[]] c d [<-|[<-|[]]] [<-|[<-|[]]] _ _ [E _]; try reflexivity; discriminate E.
  - split; [distinct|]. intros t [<-|[]]; distinct.
  - split; [distinct|]. intros t [<-|[]]; distinct.
  - vm_compute. reflexivity.
  - eexists. vm_compute. eauto 10.
Qed.
