(** Concrete sequences of versions (C119) *)
From Coq Require Import String Ascii List NArith Bool.
From Verif.Model Require Import GoString Util Octopus Common DiffCore Liquibase Cli.
From Verif.Spec Require Import OctopusSpec LiquibaseSpec CliSpec OptionsSpec EndSpec Database TraceSpec StepSpec.
From Verif.Spec Require LogReleaseSpec.
From Verif.Proofs Require Import ListLemmas OctopusProofs LiquibaseWitnesses CliCases CliOptions EndCases LogReleaseCases.
From Verif.Proofs Require ServerProofs.
Import ListNotations.
Local Open Scope string_scope.

Lemma kx_on : forall a b, true = true <-> switched_on (kx_values a b) "comments".
Proof. intros a b. split; [|reflexivity]. intros _. vm_compute. tauto. Qed.

Lemma sx_distinct : forall ts, ServerSpec.distinctb (map t_name ts) && forallb (fun t => ServerSpec.distinctb (map c_name (t_cols t))) ts = true ->
  all_distinct ts.
Proof.
  intros ts H. apply andb_prop in H. destruct H as [H1 H2]. split; [now apply ServerProofs.distinctb_iff|].
  rewrite forallb_forall in H2. intros t Ht. now apply ServerProofs.distinctb_iff, H2.
Qed.

(** the three versions of C116 *)
Definition sx_versions := map (fun s => s_tables (ex_sorted s)) [kx_first; kx_second; kx_third].
Lemma steps_case :
  steps sample_world kx_files true "1.json" sx_versions (map show_log [kx_log kx_first kx_second; kx_log kx_second kx_third]) "3.json" /\
  (forall ts, In ts sx_versions -> all_distinct ts) /\
  map (trace log_moves (all_statements [kx_log kx_first kx_second; kx_log kx_second kx_third]))
    [("u", "id"); ("u", "mail"); ("u", "name"); ("u", "old"); ("gone", "id"); ("before", "x")] =
  [Some ("u", "id"); Some ("u", "mail"); Some ("u", "code"); Some ("u", "renamed"); None; Some ("later", "x")].
Proof.
  split; [|split; [|vm_compute; reflexivity]].
  - assert (L1 : load_file sample_world kx_files "1.json" = Loaded (ex_sorted kx_first)) by (vm_compute; reflexivity).
    assert (L2 : load_file sample_world kx_files "2.json" = Loaded (ex_sorted kx_second)) by (vm_compute; reflexivity).
    assert (L3 : load_file sample_world kx_files "3.json" = Loaded (ex_sorted kx_third)) by (vm_compute; reflexivity).
    cbn [map sx_versions].
    apply (st_next _ _ _ _ "2.json" _ _ (kx_values "1.json" "2.json") _ _ _ L1); [reflexivity|reflexivity|reflexivity|apply kx_on|vm_compute; reflexivity|].
    apply (st_next _ _ _ _ "3.json" _ _ (kx_values "2.json" "3.json") _ _ _ L2); [reflexivity|reflexivity|reflexivity|apply kx_on|vm_compute; reflexivity|].
    exact (st_last _ _ _ _ _ L3).
  - intros ts [<-|[<-|[<-|[]]]]; apply sx_distinct; vm_compute; reflexivity.
Qed.

(** a column that one version does not have *)
Definition sx_with := lx_s [lx_t "t" [lx_id; lx_num "x" false false]].
Definition sx_without := lx_s [lx_t "t" [lx_id]].
Definition sx_again : files := fun n =>
  alist_find [("1.json", ex_text sx_with); ("2.json", ex_text sx_without); ("3.json", ex_text sx_with)] n.
Lemma steps_lose : exists made log1 log2 direct start,
  run sample_world sx_again GenerateLiquibase (kx_make "1.json") = ([("o", show_log made)], Done) /\
  run sample_world sx_again DiffLiquibase (kx_values "1.json" "2.json") = ([("o", show_log log1)], Done) /\
  run sample_world sx_again DiffLiquibase (kx_values "2.json" "3.json") = ([("o", show_log log2)], Done) /\
  run sample_world sx_again DiffLiquibase (kx_values "1.json" "3.json") = ([("o", show_log direct)], Done) /\
  run_log lx_sv made [] = Some start /\ LogReleaseSpec.run_logs lx_sv [log1; log2] start = run_log lx_sv direct start /\
  run_log lx_sv direct start = Some start /\
  trace log_moves (all_statements [log1; log2]) ("t", "x") = None /\ trace log_moves (lq_all direct) ("t", "x") = Some ("t", "x").
Proof.
  exists (kx_made sx_with), (kx_log sx_with sx_without), (kx_log sx_without sx_with), (kx_log sx_with sx_with). eexists.
  repeat (split; [vm_compute; reflexivity|]). vm_compute. reflexivity.
Qed.

(** a column that is renamed first and then changed *)
Definition sx_a := lx_s [lx_t "t" [lx_id; lx_col "a" false]].
Definition sx_b := lx_s [lx_t "t" [lx_id; lx_col "b" false]].
Definition sx_c := lx_s [lx_t "t" [lx_id; mkCol "b" "varchar" "" 80 0 true false false false "" "" [] None]].
Definition sx_changed : files := fun n =>
  alist_find [("1.json", ex_text sx_a); ("2.json", ex_text sx_b); ("3.json", ex_text sx_c)] n.
Lemma direct_loses : exists made log1 log2 direct start new,
  run sample_world sx_changed GenerateLiquibase (kx_make "1.json") = ([("o", show_log made)], Done) /\
  run sample_world sx_changed DiffLiquibase (kx_values "1.json" "2.json") = ([("o", show_log log1)], Done) /\
  run sample_world sx_changed DiffLiquibase (kx_values "2.json" "3.json") = ([("o", show_log log2)], Done) /\
  run sample_world sx_changed DiffLiquibase (kx_values "1.json" "3.json") = ([("o", show_log direct)], Done) /\
  run_log lx_sv made [] = Some start /\ LogReleaseSpec.run_logs lx_sv [log1; log2] start = Some new /\ run_log lx_sv direct start = Some new /\
  trace log_moves (all_statements [log1; log2]) ("t", "a") = Some ("t", "b") /\ trace log_moves (lq_all direct) ("t", "a") = None.
Proof.
  exists (kx_made sx_a), (kx_log sx_a sx_b), (kx_log sx_b sx_c), (kx_log sx_a sx_c). do 2 eexists.
  repeat (split; [vm_compute; reflexivity|]). vm_compute. reflexivity.
Qed.
