(** Cases for C117 *)
From Coq Require Import String Ascii List NArith Bool.
From Verif.Model Require Import GoString Util Octopus DiffCore Diff Liquibase.
From Verif.Spec Require Import DiffSpec UnchangedSpec.
From Verif.Proofs Require Import ServerProofs Unchanged.
Import ListNotations.
Local Open Scope string_scope.

Definition nx_id := mkCol "id" "int64" "" 0 0 true true false true "" "" [] None.
Definition nx_col (n : string) (size : N) := mkCol n "varchar" "" size 0 false false false false "" "" [] None.
Definition nx_users (size : N) := mkTable "users" [nx_id; nx_col "name" size] "people" "a" "" [].
Definition nx_orders (g : string) := mkTable "orders" [nx_id; nx_col "code" 8] "" g "" [].
Definition nx_tags := mkTable "tags" [nx_id; nx_col "tag" 9] "" "a" "" [].
Definition nx_logs := mkTable "logs" [nx_id; nx_col "line" 200] "" "b" "" [].
Definition nx_lines := mkTable "lines" [nx_id; nx_col "line" 200] "" "b" "" [].
Definition nx_s (ts : list table) : schema := mkSchema "me" "db" "1" ts.
Definition nx_from := nx_s [nx_users 20; nx_orders "a"; nx_logs; nx_tags].
Definition nx_to := nx_s [nx_lines; nx_orders "b"; nx_users 30; nx_tags].
Definition nx_o := mkDiffOption None "" "_uq" true.
Definition nx_lo := mkLqOption None "" "_uq" true.

Ltac other := simpl; intros F; repeat destruct F as [F|F]; try discriminate F; try exact F.

Lemma nx_leave : leave_out None nx_from nx_to (nx_s [nx_users 20; nx_logs]) (nx_s [nx_lines; nx_users 30]).
Proof.
  refine (leave_one None nx_from [nx_users 20] (nx_orders "a") [nx_logs; nx_tags]
                    nx_to [nx_lines] (nx_orders "b") [nx_users 30; nx_tags] _ _ _ _ I _ _ _).
  - repeat split.
  - apply distinctb_iff. reflexivity.
  - other.
  - other.
  - refine (leave_one None nx_from [nx_users 20; nx_logs] nx_tags [] nx_to [nx_lines; nx_users 30] nx_tags [] _ _ _ _ I _ _ _).
    + repeat split.
    + apply distinctb_iff. reflexivity.
    + other.
    + other.
    + apply leave_none.
Qed.

Lemma nx_case :
  option_map (map (fun cs => (cs_id cs, map (fun ch => t_name (dep_table ch)) (cs_changes cs))))
    (get_diff (fun l => l) (fun _ l => l) nx_o nx_from nx_to) = Some [("1-1", ["users"]); ("2-1", ["logs"])].
Proof. vm_compute. reflexivity. Qed.

Lemma nx_lq_case :
  option_map (map lq_changes) (lq_diff (fun _ => true) (fun l => l) (fun _ l => l) nx_lo nx_from nx_to) =
  Some [[LqModifyDataType "users" "name" "varchar(30)"]; [LqRenameTable "lines" "logs"]].
Proof. vm_compute. reflexivity. Qed.

(** an unchanged table of another group is dropped *)
Definition nx_group := get_table_filter "a".
Lemma filtered_matters : exists o sf f1 st n1 t css,
  ~ In (t_name t) (map t_name f1) /\ ~ In (t_name t) (map t_name n1) /\
  may_report o (with_one sf f1 t []) (with_one st n1 t []) css /\ In (DropTable t) (all_changes css) /\
  forall css', may_report o (without sf f1 []) (without st n1 []) css' -> css' = [].
Proof.
  exists (mkDiffOption nx_group "" "_uq" true), nx_from, [nx_users 20], nx_to, [nx_users 20], nx_logs, [mkCS "1" "me" [DropTable nx_logs]].
  split; [other|]. split; [other|]. split.
  - exists (fun l => l), (fun _ l => l). split; [intros l; apply Permutation.Permutation_refl|].
    split; [intros _ l; apply Permutation.Permutation_refl|]. vm_compute. reflexivity.
  - split; [now left|]. intros css' [ordT [ordC [HT [HC E]]]].
    rewrite DiffFacts.self_diff_empty in E.
    + now injection E.
    + exact HT.
    + exact HC.
    + split; simpl.
      * apply distinctb_iff. reflexivity.
      * intros t [<-|[]]. apply distinctb_iff. reflexivity.
    + intros t [<-|[]]. reflexivity.
Qed.
