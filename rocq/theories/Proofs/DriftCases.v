(** Concrete comparisons without and with drift *)
From Coq Require Import String Ascii List NArith Bool Sorting.Permutation.
From Verif.Model Require Import GoString Util Octopus Common DiffCore Diff Liquibase Mysql Xlsx Cli.
From Verif.Spec Require Import Order OctopusSpec DiffSpec LiquibaseSpec CliSpec OptionsSpec StabilitySpec GroupSpec MysqlSpec EndSpec DriftSpec.
From Verif.Spec Require XlsxSpec.
From Verif.Proofs Require Import CliCases ServerProofs MysqlWitnesses EndToEnd EndCases ReverseCases AgreeCases Drift DriftFiles.
From Verif.Proofs Require XlsxWitnesses.
Import ListNotations.
Local Open Scope string_scope.

(** ** What the reports and the change logs overlook *)
Lemma added_unnoticed : exists from to, distinct_names from /\ distinct_names to /\
  get_diff (fun l => l) (fun _ l => l) gx_opt from to = Some [] /\ ~ agree true None from to.
Proof.
  exists vx_one, vx_two. split; [eapply single_distinct; reflexivity|]. split; [eapply single_distinct; reflexivity|].
  split; [vm_compute; reflexivity|]. intros [_ A].
  destruct (A _ (or_introl eq_refl) I) as (old & [<-|[]] & _ & _ & _ & C).
  destruct (C (vx_text "b")) as [(o & [<-|[]] & ((N & _) & _))|[_ []]]; [right; left; reflexivity|discriminate N].
Qed.
Lemma counter_unnoticed : forall fk, exists from to, distinct_names from /\ distinct_names to /\
  lq_diff fk (fun l => l) (fun _ l => l) gx_lq from to = Some [] /\ ~ agree true None from to.
Proof.
  intros fk. exists (gx_of (gx_counter true)), (gx_of (gx_counter false)).
  split; [eapply single_distinct; reflexivity|]. split; [eapply single_distinct; reflexivity|].
  split; [vm_compute; reflexivity|]. intros [_ A].
  destruct (A _ (or_introl eq_refl) I) as (old & [<-|[]] & _ & _ & _ & C).
  destruct (C (gx_counter false)) as [(o & [<-|[]] & (_ & N))|[_ []]]; [left; reflexivity|discriminate N].
Qed.

(** other order of columns and tables, other references, values, indices, groups and on-update values *)
Definition dx_a := mkSchema "me" "shop" "1"
  [mkTable "b" [vx_text "x"] "" "g" "B" []; mkTable "a" [mkCol "k" "enum" "" 0 0 true true false false "" "" ["u"; "v"] None; vx_text "y"] "as" "g" "" []].
Definition dx_b := mkSchema "you" "" "2"
  [mkTable "a" [vx_text "y"; mkCol "k" "enum" "" 0 0 true true false false "" "now()" ["w"] (Some (mkRef "b" "x" "1:1"))] "as" "h" "A" [mkIdx "i" ["y"]];
   mkTable "b" [vx_text "x"] "" "" "" []].
Lemma dx_distinct : distinct_names dx_a /\ distinct_names dx_b.
Proof. split; (split; [apply distinctb_iff; reflexivity|]; intros t [<-|[<-|[]]]; apply distinctb_iff; reflexivity). Qed.
Lemma dx_differ : dx_a <> dx_b.
Proof. intros E. apply (f_equal s_author) in E. discriminate E. Qed.
Lemma dx_case : forall fk,
  get_diff (fun l => l) (fun _ l => l) gx_opt dx_a dx_b = Some [] /\ lq_diff fk (fun l => l) (fun _ l => l) gx_lq dx_a dx_b = Some [] /\
  agree true None dx_a dx_b.
Proof.
  intros fk. assert (A : get_diff (fun l => l) (fun _ l => l) gx_opt dx_a dx_b = Some []) by (vm_compute; reflexivity).
  assert (B : lq_diff fk (fun l => l) (fun _ l => l) gx_lq dx_a dx_b = Some []) by (vm_compute; reflexivity).
  split; [exact A|]. split; [exact B|].
  refine (proj1 (both_silent fk (fun l => l) (fun _ l => l) (fun l => l) (fun _ l => l) gx_opt gx_lq dx_a dx_b _ _ _ _ _ _ _ _) (conj A B));
    try reflexivity; try (intros l; reflexivity); try (intros i l; reflexivity); apply dx_distinct.
Qed.

(** ** Trips *)
Definition dx_export := option_values [("input", "a.json"); ("output", "a.sql"); ("uniqueNameSuffix", "_uq")].
Definition dx_import := option_values [("input", "a.sql"); ("output", "b.json"); ("author", "you")].
Definition dx_diff (comments : string) := option_values [("from", "a.json"); ("to", "b.json"); ("output", "c"); ("comments", comments)].
Definition dx_sql (s : schema) : string := text_written (run end_world (fun _ => Some (ex_text s)) ExportMysql dx_export).
Definition dx_back (s : schema) : string := text_written (run end_world (fun _ => Some (dx_sql s)) ImportMysql dx_import).
Definition dx_files (s : schema) : files := fun n => if String.eqb n "a.json" then Some (ex_text s) else Some (dx_back s).

Lemma mx_distinct : distinct_names mx_schema.
Proof. split; [apply distinctb_iff; reflexivity|]; intros t [<-|[<-|[]]]; apply distinctb_iff; reflexivity. Qed.
Lemma dx_hyps : real_world end_world /\ reads_sql end_world mx_reserved /\
  load_file end_world (fun _ => Some (ex_text mx_schema)) "a.json" = Loaded mx_schema /\ valid_schema mx_schema /\ distinct_names mx_schema /\
  Forall (plain_table mx_reserved "_uq") (s_tables mx_schema) /\ Forall (fun t => Forall survives (t_cols t)) (s_tables mx_schema) /\
  compares (dx_diff "false") "a.json" "b.json" /\ flag_bool DiffFlyway (dx_diff "false") "comments" = false /\
  run end_world (dx_files mx_schema) DiffFlyway (dx_diff "false") = ([("c", "")], Done).
Proof.
  split; [exact end_real|]. split; [exact (proj1 mysql_case)|]. split; [apply mysql_case|]. split; [apply mysql_case|].
  split; [exact mx_distinct|]. split; [exact mx_plain|].
  split. { pose proof mx_survives as S. rewrite Forall_forall in *. intros t T. apply S. exact T. }
  split. { unfold compares. split; [discriminate|]. split; [reflexivity|]. split; reflexivity. }
  split; vm_compute; reflexivity.
Qed.
(** with comments, the descriptions of tables are drift *)
Lemma description_drift :
  load_file end_world (dx_files mx_schema) "a.json" = Loaded mx_schema /\
  compares (dx_diff "true") "a.json" "b.json" /\ flag_bool DiffFlyway (dx_diff "true") "comments" = true /\
  run end_world (dx_files mx_schema) DiffMd (dx_diff "true") = ([("c", "# DB Schema changes

* from: `1`
* to: ``

## user
* update table comment: ``
")], Done).
Proof.
  split; [vm_compute; reflexivity|].
  split. { unfold compares. split; [discriminate|]. split; [reflexivity|]. split; reflexivity. }
  split; vm_compute; reflexivity.
Qed.

Definition dx_unbook : string := text_written (run end_world (fun _ => Some ex_xlsx) ImportXlsx ex_unbook).
Definition dx_books : files := fun n => if String.eqb n "a.json" then Some (ex_text XlsxWitnesses.xl_schema) else Some dx_unbook.
Lemma xl_distinct : distinct_names XlsxWitnesses.xl_schema.
Proof. split; [apply distinctb_iff; reflexivity|]; intros t [<-|[<-|[]]]; apply distinctb_iff; reflexivity. Qed.
Lemma book_case : distinct_names XlsxWitnesses.xl_schema /\
  run end_world dx_books DiffFlyway (dx_diff "true") = ([("c", "")], Done).
Proof. split; [exact xl_distinct|]. vm_compute. reflexivity. Qed.
