(** Removed columns in Flyway scripts (C147) *)
From Coq Require Import String Ascii List NArith Bool Sorting.Permutation.
From Verif.Model Require Import GoString Util Octopus DiffCore Diff Mysql DiffWriters Liquibase.
From Verif.Spec Require Import DiffSpec LocalSpec WidenSpec WidenSources WidenDiff NarrowDiff.
From Verif.Proofs Require Import StringLemmas LocalProofs WidenCases WidenDiffProofs WidenDiffCases NarrowDiffProofs.
Import ListNotations.
Local Open Scope string_scope.

Lemma only_drops : forall author n ps css, only_gone (fun t id k => mkCS id author [DropColumn t k]) n ps css ->
  forall cs, In cs css -> exists t k, cs_changes cs = [DropColumn t k].
Proof.
  intros author n ps css H. induction H as [n|n t t' ps css N H IH|n t t' ps css names N P I H IH]; [intros cs []|exact IH|].
  intros cs J. apply in_app_or in J as [J|J]; [|now apply IH]. unfold numbered in J. apply in_map_iff in J as [[i k] [<- _]].
  cbn [cs_changes snd]. eauto.
Qed.
Lemma drops_blank : forall suffix css, (forall cs, In cs css -> exists t k, cs_changes cs = [DropColumn t k]) ->
  forall c, In c (list_ascii_of_string (flyway_write suffix css)) -> c = "010"%char.
Proof.
  intros suffix css H c.
  assert (E : flyway_write suffix css = String.concat "" (map (fun _ => newline) css)).
  { unfold flyway_write. f_equal. apply map_ext_in. intros cs I. destruct (H cs I) as [t [k ->]]. reflexivity. }
  rewrite E. clear E H. induction css as [|a css IH]; [intros []|]. cbn [map].
  destruct css as [|b css]; [intros [<-|[]]; reflexivity|].
  change (String.concat "" (newline :: map (fun _ => newline) (b :: css))) with (String "010" (String.concat "" (map (fun _ : cset => newline) (b :: css)))).
  cbn [list_ascii_of_string]. intros [<-|I]; [reflexivity|]. now apply IH.
Qed.
Lemma script_blank : forall ordT ordC o s s' css, iteration_order ordT -> (forall i, iteration_order (ordC i)) ->
  widened s s' -> distinct_names s' -> (forall t, In t (s_tables s) -> selected (do_filter o) t) ->
  Forall2 key_kept (s_tables s) (s_tables s') -> Forall2 unique_kept (s_tables s) (s_tables s') ->
  get_diff ordT ordC o s' s = Some css ->
  forall c, In c (list_ascii_of_string (flyway_write (do_suffix o) css)) -> c = "010"%char.
Proof.
  intros ordT ordC o s s' css HT HC W D Hf K U E. destruct (report_gone ordT ordC o s s' HT HC W D Hf K U) as [css' [E' G]].
  rewrite E in E'. injection E' as <-. apply drops_blank. exact (only_drops _ _ _ _ G).
Qed.
Lemma script_not : exists s s' css, widened s s' /\ distinct_names s' /\
  Forall2 key_kept (s_tables s) (s_tables s') /\ Forall2 unique_kept (s_tables s) (s_tables s') /\
  get_diff (fun l => l) (fun _ l => l) wf_opt s' s = Some css /\
  (exists t, In (DropColumn t "mail") (all_changes css)) /\ flyway_write (do_suffix wf_opt) css = newline ++ newline.
Proof.
  exists wf_old, wf_new. eexists. refine (conj wf_widened (conj wf_distinct (conj wf_key (conj wf_unique (conj _ (conj _ _)))))).
  - vm_compute. reflexivity.
  - eexists. right. left. reflexivity.
  - vm_compute. reflexivity.
Qed.
