(** Columns added to tables: sources of programs (C140) *)
From Coq Require Import String Ascii List NArith ZArith Bool.
From Verif.Model Require Import GoString Util Octopus Common Gorm Protobuf.
From Verif.Spec Require Import DiffSpec Text Reading GormSpec LocalSpec WidenSpec WidenSources.
From Verif.Proofs Require Import LocalProofs GormProofs WidenCases WidenSourcesProofs WidenSourcesCases.
Import ListNotations.
Local Open Scope string_scope.

(** C140. If columns are added to tables, the lines of the generated sources stay and lines are added. False of Go: a
    second unique column changes the tag of the first one, and the last column of an embedded model removes the others. *)
Theorem C140_gorm_refuted : exists s s', widened s s' /\ Forall2 (same_models default_models) (s_tables s) (s_tables s') /\ ~ only_adds (ws_go s) (ws_go s').
Proof. exact gorm_unique_not. Qed.
Print Assumptions C140_gorm_refuted.
Theorem C140_gorm_models_refuted : exists s s', widened s s' /\ Forall2 unique_kept (s_tables s) (s_tables s') /\ ~ only_adds (ws_go s) (ws_go s').
Proof. exact gorm_models_not. Qed.
Print Assumptions C140_gorm_models_refuted.

(** True if no added column is unique or completes a model; maps may be iterated in different orders. *)
Theorem C140_gorm_partial : forall camel snake om on om' on' m o g s s',
  (forall k, iteration_order (om k)) -> (forall k, iteration_order (on k)) -> (forall k, iteration_order (om' k)) -> (forall k, iteration_order (on' k)) ->
  go_filter o = get_table_filter g -> NoDup (map fst m) -> widened s s' ->
  Forall2 unique_kept (s_tables s) (s_tables s') ->
  Forall2 (same_models (embed_models m (go_embed o))) (s_tables s) (s_tables s') ->
  (forall t, In t (s_tables s') -> one_fits (embed_models m (go_embed o)) t) ->
  only_adds (fst (gorm_generate camel snake om on m o s)) (fst (gorm_generate camel snake om' on' m o s')).
Proof. exact (fun camel snake om on om' on' m o g s s' A B C D => gorm_widens camel snake om on om' on' A B C D m o g s s'). Qed.
Print Assumptions C140_gorm_partial.

(** False of Protocol Buffers: a column at the end changes the number of a relation, one elsewhere those of columns. *)
Theorem C140_protobuf_refuted : exists s s' x x', widened s s' /\ Forall2 appended (s_tables s) (s_tables s') /\
  pb_generate same_word same_word ws_pb s = Ok x /\ pb_generate same_word same_word ws_pb s' = Ok x' /\ ~ only_adds x x'.
Proof. exact protobuf_not. Qed.
Print Assumptions C140_protobuf_refuted.
Theorem C140_protobuf_front_refuted : exists s s' x x', widened s s' /\ Forall2 (numbers_stay (-1) false) (s_tables s) (s_tables s') /\
  pb_generate same_word same_word ws_pb s = Ok x /\ pb_generate same_word same_word ws_pb s' = Ok x' /\ ~ only_adds x x'.
Proof. exact protobuf_front_not. Qed.
Print Assumptions C140_protobuf_front_refuted.

(** True if columns are added at the end only and the numbers of the relations are not touched. *)
Theorem C140_protobuf_partial : forall camel lc o g s s' text', po_filter o = get_table_filter g -> widened s s' ->
  Forall2 appended (s_tables s) (s_tables s') -> Forall2 (numbers_stay (po_start o) (po_decr o)) (s_tables s) (s_tables s') ->
  pb_generate camel lc o s' = Ok text' -> exists text, pb_generate camel lc o s = Ok text /\ only_adds text text'.
Proof. exact protobuf_widens. Qed.
Print Assumptions C140_protobuf_partial.

(** A column is added at the end of the second table; the first one has a reference. *)
Definition ws_old : schema := wd_schema [wd_id; wd_boss] [wd_id; wd_name].
Definition ws_new : schema := wd_schema [wd_id; wd_boss] [wd_id; wd_name; ws_col "born"].
Example C140_case : widened ws_old ws_new /\ Forall2 unique_kept (s_tables ws_old) (s_tables ws_new) /\
  Forall2 (same_models (embed_models default_models (go_embed ws_gorm))) (s_tables ws_old) (s_tables ws_new) /\
  (forall t, In t (s_tables ws_new) -> one_fits (embed_models default_models (go_embed ws_gorm)) t) /\
  Forall2 appended (s_tables ws_old) (s_tables ws_new) /\ Forall2 (numbers_stay (po_start ws_pb) (po_decr ws_pb)) (s_tables ws_old) (s_tables ws_new) /\
  (length (file_lines (ws_go ws_old)), length (file_lines (ws_go ws_new))) = (21, 23) /\
  exists text, pb_generate same_word same_word ws_pb ws_new = Ok text.
Proof.
  refine (conj _ (conj _ (conj _ (conj _ (conj _ (conj _ (conj _ _))))))).
  - apply wd_widened; added.
  - constructor; [|constructor; [|constructor]]; reflexivity.
  - constructor; [|constructor; [|constructor]]; intros n cols [E|[]] F; injection E as <- <-; exfalso.
    + destruct (F "created_at" ltac:(cbn; tauto)) as [H|[H|H]]; [discriminate..|destruct H].
    + destruct (F "created_at" ltac:(cbn; tauto)) as [H|[H|[H|H]]]; [discriminate..|destruct H].
  - intros t _. apply single_model.
  - constructor; [|constructor; [|constructor]]; [exists []|exists [ws_col "born"]]; reflexivity.
  - constructor; [|constructor; [|constructor]]; [right; left; reflexivity|].
    left. intros c I; cbn in I; repeat (destruct I as [<-|I]; [reflexivity|]); destruct I.
  - vm_compute. reflexivity.
  - eexists. vm_compute. reflexivity.
Qed.
