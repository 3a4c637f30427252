(** Concrete traces of values through migrations (C118) *)
From Coq Require Import String Ascii List NArith Bool Sorting.Permutation.
From Verif.Model Require Import GoString Util Octopus DiffCore Diff DiffWriters Liquibase.
From Verif.Spec Require Import DiffSpec LiquibaseSpec MysqlGrammar FlywaySpec TraceSpec.
From Verif.Proofs Require Import StringLemmas MysqlLex MysqlRead MysqlWitnesses FlywayProofs FlywayFacts ReverseCases AgreeCases UnchangedCases.
From Verif.Proofs Require ServerProofs.
Import ListNotations.
Local Open Scope string_scope.

Definition tx_places (ts : list table) : list place := flat_map (fun t => map (fun c => (t_name t, c_name c)) (t_cols t)) ts.

Definition tx_lq (from to : schema) : list lq_change :=
  match lq_diff (fun _ => true) (fun l => l) (fun _ l => l) gx_lq from to with Some css => lq_all css | None => [] end.
Definition tx_diff (o : diff_option) (from to : schema) : list change :=
  match get_diff (fun l => l) (fun _ l => l) o from to with Some css => all_changes css | None => [] end.

(** the schemas of C114: renamed tables and columns, a dropped table *)
Lemma tx_log_case :
  all_distinct (s_tables vx_from) /\ all_distinct (s_tables vx_to) /\
  map (fun p => (p, trace log_moves (tx_lq vx_from vx_to) p)) (tx_places (s_tables vx_from)) =
  [(("first", "id"), Some ("one", "id")); (("first", "code"), Some ("one", "code")); (("old", "id"), None);
   (("second", "id"), Some ("two", "id")); (("second", "code"), Some ("two", "code"));
   (("user", "id"), Some ("user", "id")); (("user", "a"), Some ("user", "c")); (("user", "b"), Some ("user", "d"));
   (("user", "age"), Some ("user", "age"))].
Proof. split; [exact (proj1 vx_distinct)|]. split; [exact (proj2 vx_distinct)|]. vm_compute. reflexivity. Qed.

Lemma tx_report_case :
  map (trace change_moves (tx_diff vx_opt vx_from vx_to)) (tx_places (s_tables vx_from)) =
  map (trace log_moves (tx_lq vx_from vx_to)) (tx_places (s_tables vx_from)).
Proof. vm_compute. reflexivity. Qed.

(** the schemas of C23 *)
Lemma tx_script_case :
  distinct_names fx_from /\ distinct_names fx_to /\
  (forall t old, In t (s_tables fx_to) -> In old (s_tables fx_from) -> t_name old = t_name t ->
     incl (map c_name (t_cols old)) (map c_name (t_cols t))) /\
  option_map (fun stmts => map (fun p => (p, trace sql_moves stmts p)) (tx_places (s_tables fx_from)))
    (read_script fx_reserved (flyway_write (do_suffix fx_o) fx_css)) =
  Some [(("item", "id"), Some ("item", "id")); (("item", "code"), Some ("item", "code")); (("gone", "id"), None)].
Proof.
  split. { split; [apply ServerProofs.distinctb_iff; reflexivity|]. intros t [<-|[<-|[]]]; apply ServerProofs.distinctb_iff; reflexivity. }
  split. { split; [apply ServerProofs.distinctb_iff; reflexivity|]. intros t [<-|[<-|[]]]; apply ServerProofs.distinctb_iff; reflexivity. }
  split; [|vm_compute; reflexivity].
  intros t old [<-|[<-|[]]] [<-|[<-|[]]] E; try discriminate E. intros x H. exact H.
Qed.

(** a renamed column: the report moves its values, the script leaves them where they were *)
Definition tx_old := nx_s [nx_users 20].
Definition tx_new := nx_s [mkTable "users" [nx_id; nx_col "title" 20] "people" "a" "" []].
Lemma script_leaves : exists css,
  get_diff (fun l => l) (fun _ l => l) nx_o tx_old tx_new = Some css /\
  trace change_moves (all_changes css) ("users", "name") = Some ("users", "title") /\
  read_script fx_reserved (flyway_write (do_suffix nx_o) css) = Some [] /\
  trace sql_moves [] ("users", "name") = Some ("users", "name") /\
  has (s_tables tx_old) ("users", "name") /\ ~ has (s_tables tx_new) ("users", "name").
Proof.
  eexists. split; [vm_compute; reflexivity|]. split; [vm_compute; reflexivity|]. split; [vm_compute; reflexivity|]. split; [reflexivity|]. split.
  - exists (nx_users 20), (nx_col "name" 20). repeat split; simpl; auto.
  - intros [t [c [[<-|[]] [[<-|[<-|[]]] E]]]]; discriminate E.
Qed.

(** a table of another group: both comparisons lose its values, although the new schema has it *)
Lemma groups_lose : exists f css log,
  get_diff (fun l => l) (fun _ l => l) (mkDiffOption f "" "_uq" true) nx_from nx_from = Some css /\
  lq_diff (fun _ => true) (fun l => l) (fun _ l => l) (mkLqOption f "" "_uq" true) nx_from nx_from = Some log /\
  has (s_tables nx_from) ("logs", "line") /\
  trace change_moves (all_changes css) ("logs", "line") = None /\ trace log_moves (lq_all log) ("logs", "line") = None.
Proof.
  exists nx_group. eexists. eexists. split; [vm_compute; reflexivity|]. split; [vm_compute; reflexivity|]. split.
  - exists nx_logs, (nx_col "line" 200). repeat split; simpl; auto.
  - split; vm_compute; reflexivity.
Qed.

(** a column that is removed while another like it is added: its values become those of the other *)
Lemma values_taken : exists css,
  lq_diff (fun _ => true) (fun l => l) (fun _ l => l) nx_lo
    (nx_s [mkTable "users" [nx_id; nx_col "password" 20] "" "" "" []])
    (nx_s [mkTable "users" [nx_id; nx_col "nickname" 20] "" "" "" []]) = Some css /\
  lq_all css = [LqRenameColumn "users" "nickname" "password" "varchar(20)"] /\
  trace log_moves (lq_all css) ("users", "password") = Some ("users", "nickname").
Proof. eexists. split; [vm_compute; reflexivity|]. split; vm_compute; reflexivity. Qed.

(** two columns, and one place for them *)
Definition tx_two := nx_s [mkTable "users" [nx_id; nx_col "name" 20; nx_col "nick" 20] "" "" "" []].
Definition tx_one := nx_s [mkTable "users" [nx_id; nx_col "title" 20] "" "" "" []].
Lemma tx_lost_case :
  trace log_moves (tx_lq tx_two tx_one) ("users", "nick") = None /\
  may_move true (s_tables tx_two) (s_tables tx_one) ("users", "nick") ("users", "title") /\
  trace log_moves (tx_lq tx_two tx_one) ("users", "name") = Some ("users", "title").
Proof.
  split; [vm_compute; reflexivity|]. split; [|vm_compute; reflexivity].
  apply (move_column true _ _ (hd (mkTable "" [] "" "" "" []) (s_tables tx_two)) (hd (mkTable "" [] "" "" "" []) (s_tables tx_one))
           (nx_col "nick" 20) (nx_col "title" 20)); simpl; auto.
  - unfold same_attributes. simpl. intuition.
  - intros [C|[C|[]]]; discriminate.
  - intros [C|[C|[C|[]]]]; discriminate.
Qed.
