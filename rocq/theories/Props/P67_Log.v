(** Columns added to tables: change logs (C144) *)
From Coq Require Import String Ascii List NArith Bool.
From Verif.Model Require Import GoString Util Octopus Common DiffCore Liquibase.
From Verif.Spec Require Import LocalSpec WidenSpec WidenSources WidenLog.
From Verif.Proofs Require Import LocalProofs WidenCases WidenLogProofs.
Import ListNotations.
Local Open Scope string_scope.

(** C144. If columns are added to tables, every change set of the change log for the schema is generated again with its id and
    only gets columns. False: a second column of the key, or a second unique one, changes how the first one is declared; *)
Theorem C144_key_refuted : exists s s' r r', widened s s' /\ Forall2 unique_kept (s_tables s) (s_tables s') /\
  wl_log s = Some r /\ wl_log s' = Some r' /\ ~ log_adds r r'.
Proof. exact log_key_not. Qed.
Print Assumptions C144_key_refuted.
Theorem C144_unique_refuted : exists s s' r r', widened s s' /\ Forall2 key_kept (s_tables s) (s_tables s') /\
  wl_log s = Some r /\ wl_log s' = Some r' /\ ~ log_adds r r'.
Proof. exact log_unique_not. Qed.
Print Assumptions C144_unique_refuted.

(** and with any column the change set of the table is another one, which Liquibase refuses to run over the old one. *)
Theorem C144_same_refuted : exists s s' r r', widened s s' /\ Forall2 key_kept (s_tables s) (s_tables s') /\ Forall2 unique_kept (s_tables s) (s_tables s') /\
  wl_log s = Some r /\ wl_log s' = Some r' /\ ~ incl r r'.
Proof. exact log_changed. Qed.
Print Assumptions C144_same_refuted.

(** True if no added column belongs to a key or is unique: as many change sets, in the same order, with the same ids; and the
    change log of the smaller schema can be written if that of the larger one can. *)
Theorem C144_partial : forall float o g s s' r', lo_filter o = get_table_filter g -> widened s s' ->
  Forall2 key_kept (s_tables s) (s_tables s') -> Forall2 unique_kept (s_tables s) (s_tables s') ->
  lq_generate float o s' = Some r' -> exists r, lq_generate float o s = Some r /\ Forall2 cset_adds r r'.
Proof. exact log_widens. Qed.
Print Assumptions C144_partial.

(** A column is added to the second table, which has a key and a unique column. *)
Definition wl_old : schema := wd_schema [wd_id; wd_boss] [wd_id; wd_name].
Definition wl_new : schema := wd_schema [wd_id; wd_boss] [wd_id; wd_mail; wd_name].
Example C144_case : exists r r', widened wl_old wl_new /\ Forall2 key_kept (s_tables wl_old) (s_tables wl_new) /\
  Forall2 unique_kept (s_tables wl_old) (s_tables wl_new) /\ wl_log wl_old = Some r /\ wl_log wl_new = Some r' /\
  map lq_id r = ["1-1"; "2-1"; "2-2"] /\ map lq_id r' = ["1-1"; "2-1"; "2-2"] /\ r <> r'.
Proof.
  eexists. eexists. refine (conj _ (conj _ (conj _ (conj _ (conj _ (conj _ (conj _ _))))))).
  - apply wd_widened; added.
  - constructor; [|constructor; [|constructor]]; reflexivity.
  - constructor; [|constructor; [|constructor]]; reflexivity.
  - vm_compute. reflexivity.
  - vm_compute. reflexivity.
  - reflexivity.
  - reflexivity.
  - discriminate.
Qed.
