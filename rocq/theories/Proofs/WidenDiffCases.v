(** Added columns in comparisons, concrete schemas (C146) *)
From Coq Require Import String Ascii List NArith Bool.
From Verif.Model Require Import GoString Util Octopus DiffCore Diff Liquibase.
From Verif.Spec Require Import DiffSpec LocalSpec WidenSpec WidenSources WidenDiff.
From Verif.Proofs Require Import LocalProofs WidenCases WidenDiffProofs.
Import ListNotations.
Local Open Scope string_scope.

Definition wf_old : schema := wd_schema [wd_id] [wd_id; wd_name].
Definition wf_new : schema := wd_schema [wd_id; wd_boss] [wd_id; wd_mail; wd_name].
Definition wf_opt : diff_option := mkDiffOption None "" "_uq" true.
Definition wf_log : lq_option := mkLqOption None "" "_uq" true.

Ltac distinct := repeat constructor; cbn; intuition discriminate.
Lemma wf_distinct : distinct_names wf_new.
Proof. split; [distinct|]. intros t [<-|[<-|[]]]; distinct. Qed.
Lemma wf_widened : widened wf_old wf_new.
Proof. apply wd_widened; added. Qed.
Lemma wf_key : Forall2 key_kept (s_tables wf_old) (s_tables wf_new).
Proof. constructor; [|constructor; [|constructor]]; reflexivity. Qed.
Lemma wf_unique : Forall2 unique_kept (s_tables wf_old) (s_tables wf_new).
Proof. constructor; [|constructor; [|constructor]]; reflexivity. Qed.

(** two columns are added, nothing is reported *)
Lemma report_not : exists s s', widened s s' /\ distinct_names s' /\
  Forall2 key_kept (s_tables s) (s_tables s') /\ Forall2 unique_kept (s_tables s) (s_tables s') /\
  (exists t t', In (t, t') (combine (s_tables s) (s_tables s')) /\ new_names t t' <> []) /\
  get_diff (fun l => l) (fun _ l => l) wf_opt s s' = Some [].
Proof.
  exists wf_old, wf_new. refine (conj wf_widened (conj wf_distinct (conj wf_key (conj wf_unique (conj _ _))))); [|vm_compute; reflexivity].
  eexists. eexists. split; [left; reflexivity|discriminate].
Qed.
