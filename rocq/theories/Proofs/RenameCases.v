(** Tables that get other names (C149) *)
From Coq Require Import String Ascii List NArith Bool Sorting.Permutation.
From Verif.Model Require Import GoString Util Octopus DiffCore Diff Liquibase.
From Verif.Spec Require Import DiffSpec RenameSpec.
From Verif.Proofs Require Import WidenCases WidenDiffCases.
Import ListNotations.
Local Open Scope string_scope.

Definition rn_table (name desc : string) (cols : list column) : table := mkTable name cols desc "" "" [].
Definition rn_name : column := mkCol "name" "varchar" "" 40 0 true false false false "" "" [] None.
Definition rn_schema (ts : list table) : schema := mkSchema "" "" "" ts.

(** two tables with the same columns *)
Definition rn_years : schema := rn_schema [rn_table "a" "this year" [wd_id; rn_name]; rn_table "b" "last year" [wd_id; rn_name]].
Definition rn_years' : schema := rn_schema [rn_table "x" "last year" [wd_id; rn_name]; rn_table "y" "this year" [wd_id; rn_name]].
Definition rn_cross (n : string) : string := if String.eqb n "a" then "y" else if String.eqb n "b" then "x" else n.
Lemma wrong_pairs : exists ren from to css, only_renamed ren from to /\ fresh_names ren from /\ distinct_names from /\ distinct_names to /\
  get_diff (fun l => l) (fun _ l => l) wf_opt from to = Some css /\
  exists t u, In (RenameTable t u) (all_changes css) /\ In t (s_tables from) /\ u <> renamed_by ren t.
Proof.
  exists rn_cross, rn_years, rn_years'. eexists. refine (conj _ (conj _ (conj _ (conj _ (conj _ _))))).
  - apply perm_swap.
  - intros t [<-|[<-|[]]] _ [E|[E|[]]]; discriminate E.
  - split; [distinct|]. intros t [<-|[<-|[]]]; distinct.
  - split; [distinct|]. intros t [<-|[<-|[]]]; distinct.
  - vm_compute. reflexivity.
  - exists (rn_table "a" "this year" [wd_id; rn_name]), (rn_table "x" "last year" [wd_id; rn_name]).
    split; [left; reflexivity|]. split; [left; reflexivity|]. discriminate.
Qed.

(** a table that gets the old name of another *)
Definition rn_chain : schema := rn_schema [rn_table "a" "" [wd_id; rn_name]; rn_table "b" "" [wd_id; wd_mail]].
Definition rn_chain' : schema := rn_schema [rn_table "b" "" [wd_id; rn_name]; rn_table "c" "" [wd_id; wd_mail]].
Definition rn_next (n : string) : string := if String.eqb n "a" then "b" else if String.eqb n "b" then "c" else n.
Lemma lost_table : exists ren from to css, only_renamed ren from to /\ told_apart ren from /\ distinct_names from /\ distinct_names to /\
  get_diff (fun l => l) (fun _ l => l) wf_opt from to = Some css /\ exists t, In (DropTable t) (all_changes css).
Proof.
  exists rn_next, rn_chain, rn_chain'. eexists. refine (conj _ (conj _ (conj _ (conj _ (conj _ _))))).
  - apply Permutation_refl.
  - intros t u [<-|[<-|[]]] [<-|[<-|[]]] _ _ E; try reflexivity; discriminate E.
  - split; [distinct|]. intros t [<-|[<-|[]]]; distinct.
  - split; [distinct|]. intros t [<-|[<-|[]]]; distinct.
  - vm_compute. reflexivity.
  - exists (rn_table "a" "" [wd_id; rn_name]). vm_compute. tauto.
Qed.
