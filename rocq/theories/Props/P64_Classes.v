(** Columns added to tables: Kotlin classes (C141) *)
From Coq Require Import String Ascii List NArith Bool.
From Verif.Model Require Import GoString Util Octopus Common Jpa.
From Verif.Spec Require Import Text Reading LocalSpec WidenSpec WidenSources WidenKotlin.
From Verif.Proofs Require Import LocalProofs WidenCases WidenKotlinProofs WidenKotlinCases.
Import ListNotations.
Local Open Scope string_scope.

(** C141. If columns are added to tables, the lines of the generated Kotlin files stay and lines are added. False: a column
    at the end puts a comma behind the one before, a unique one changes the constraint, one of the key the repository. *)
Theorem C141_refuted : exists s s' l l', widened s s' /\ Forall2 key_kept (s_tables s) (s_tables s') /\ Forall2 unique_kept (s_tables s) (s_tables s') /\
  wk_files s = (l, KtDone) /\ wk_files s' = (l', KtDone) /\ ~ files_add l l'.
Proof. exact kotlin_last_not. Qed.
Print Assumptions C141_refuted.
Theorem C141_unique_refuted : exists s s' l l', widened s s' /\ Forall2 key_kept (s_tables s) (s_tables s') /\ Forall2 last_kept (s_tables s) (s_tables s') /\
  wk_files s = (l, KtDone) /\ wk_files s' = (l', KtDone) /\ ~ files_add l l'.
Proof. exact kotlin_unique_not. Qed.
Print Assumptions C141_unique_refuted.
Theorem C141_key_refuted : exists s s' l l', widened s s' /\ Forall2 unique_kept (s_tables s) (s_tables s') /\ Forall2 last_kept (s_tables s) (s_tables s') /\
  wk_files s = (l, KtDone) /\ wk_files s' = (l', KtDone) /\ ~ files_add l l'.
Proof. exact kotlin_key_not. Qed.
Print Assumptions C141_key_refuted.

(** True if no added column is unique, belongs to the primary key or comes last: the same files are written in the same
    order, lines are only added to them, and the smaller schema can be written if the larger one can. *)
Theorem C141_partial : forall camel lower_camel snake path_join o g s s' output files',
  ko_filter o = get_table_filter g -> widened s s' ->
  Forall2 key_kept (s_tables s) (s_tables s') -> Forall2 unique_kept (s_tables s) (s_tables s') -> Forall2 last_kept (s_tables s) (s_tables s') ->
  kt_generate camel lower_camel snake path_join o s' output = (files', KtDone) ->
  exists files, kt_generate camel lower_camel snake path_join o s output = (files, KtDone) /\ files_add files files'.
Proof. exact kotlin_widens. Qed.
Print Assumptions C141_partial.

(** A column of another type is added in the middle: an import and the lines of a field are added to one of four files. *)
Example C141_case : exists l l', widened (wd_schema [wd_id; wd_boss] [wd_id; wd_name]) (wd_schema [wd_id; wd_boss] [wd_id; wk_col "born"; wd_name]) /\
  Forall2 key_kept (s_tables (wd_schema [wd_id; wd_boss] [wd_id; wd_name])) (s_tables (wd_schema [wd_id; wd_boss] [wd_id; wk_col "born"; wd_name])) /\
  Forall2 unique_kept (s_tables (wd_schema [wd_id; wd_boss] [wd_id; wd_name])) (s_tables (wd_schema [wd_id; wd_boss] [wd_id; wk_col "born"; wd_name])) /\
  Forall2 last_kept (s_tables (wd_schema [wd_id; wd_boss] [wd_id; wd_name])) (s_tables (wd_schema [wd_id; wd_boss] [wd_id; wk_col "born"; wd_name])) /\
  wk_files (wd_schema [wd_id; wd_boss] [wd_id; wd_name]) = (l, KtDone) /\
  wk_files (wd_schema [wd_id; wd_boss] [wd_id; wk_col "born"; wd_name]) = (l', KtDone) /\
  map (fun f => length (file_lines (snd f))) l = [18; 20; 8; 8] /\ map (fun f => length (file_lines (snd f))) l' = [18; 24; 8; 8].
Proof.
  eexists. eexists. refine (conj _ (conj _ (conj _ (conj _ (conj _ (conj _ (conj _ _))))))).
  - apply wd_widened; added.
  - constructor; [|constructor; [|constructor]]; reflexivity.
  - constructor; [|constructor; [|constructor]]; reflexivity.
  - constructor; [|constructor; [|constructor]]; one_last; [exists [wd_id]|exists [wd_id; wk_col "born"]]; reflexivity.
  - vm_compute. reflexivity.
  - vm_compute. reflexivity.
  - vm_compute. reflexivity.
  - vm_compute. reflexivity.
Qed.
