(** Columns whose addition changes other lines of sources (C140) *)
From Coq Require Import String Ascii List NArith ZArith Bool.
From Verif.Model Require Import GoString Util Octopus Common Gorm Protobuf.
From Verif.Spec Require Import DiffSpec Text Reading GormSpec LocalSpec WidenSpec WidenSources.
From Verif.Proofs Require Import LocalProofs WidenCases.
Import ListNotations.
Local Open Scope string_scope.

Definition as_given (_ : nat) (l : list (string * list string)) : list (string * list string) := l.
Definition ws_gorm : gorm_opt := mkGormOpt "" None "" false (mkPM "" [] false) [] "_uq".
Definition ws_go (s : schema) : string := fst (gorm_generate same_word same_word as_given as_given default_models ws_gorm s).
Definition ws_pb : pb_option := mkPbOpt (mkPM "" [] false) None [] "" "" (-1) false.
Definition ws_col (n : string) : column := mkCol n "datetime" "" 0 0 true false false false "" "" [] None.
Definition ws_code : column := mkCol "code" "varchar" "" 40 0 true false true false "" "" [] None.

(** a second unique column: the tag of the first one changes *)
Lemma gorm_unique_not : exists s s', widened s s' /\ Forall2 (same_models default_models) (s_tables s) (s_tables s') /\ ~ only_adds (ws_go s) (ws_go s').
Proof.
  exists (wd_schema [wd_id] [wd_id; wd_name]), (wd_schema [wd_id] [wd_id; wd_name; ws_code]). split; [|split].
  - apply wd_widened; added.
  - constructor; [|constructor; [|constructor]]; intros n cols [E|[]] F; injection E as <- <-; exfalso.
    + destruct (F "created_at" ltac:(cbn; tauto)) as [H|H]; [discriminate|destruct H].
    + destruct (F "created_at" ltac:(cbn; tauto)) as [H|[H|[H|H]]]; [discriminate..|destruct H].
  - apply not_adds. vm_compute. reflexivity.
Qed.
(** the last column of an embedded model: the fields of the other ones vanish *)
Lemma gorm_models_not : exists s s', widened s s' /\ Forall2 unique_kept (s_tables s) (s_tables s') /\ ~ only_adds (ws_go s) (ws_go s').
Proof.
  exists (wd_schema [wd_id] [wd_id; ws_col "created_at"; ws_col "updated_at"]),
    (wd_schema [wd_id] [wd_id; ws_col "created_at"; ws_col "updated_at"; ws_col "deleted_at"]). split; [|split].
  - apply wd_widened; added.
  - constructor; [|constructor; [|constructor]]; reflexivity.
  - apply not_adds. vm_compute. reflexivity.
Qed.
(** a column at the end: the number of the relation changes *)
Lemma protobuf_not : exists s s' x x', widened s s' /\ Forall2 appended (s_tables s) (s_tables s') /\
  pb_generate same_word same_word ws_pb s = Ok x /\ pb_generate same_word same_word ws_pb s' = Ok x' /\ ~ only_adds x x'.
Proof.
  exists (wd_schema [wd_id; wd_boss] [wd_id]), (wd_schema [wd_id; wd_boss; wd_mail] [wd_id]). eexists. eexists. split; [|split; [|split; [|split]]].
  - apply wd_widened; added.
  - constructor; [|constructor; [|constructor]]; [exists [wd_mail]|exists []]; reflexivity.
  - vm_compute. reflexivity.
  - vm_compute. reflexivity.
  - apply not_adds. vm_compute. reflexivity.
Qed.
(** a column in front, without any relation: the numbers of the columns behind it change *)
Lemma protobuf_front_not : exists s s' x x', widened s s' /\ Forall2 (numbers_stay (-1) false) (s_tables s) (s_tables s') /\
  pb_generate same_word same_word ws_pb s = Ok x /\ pb_generate same_word same_word ws_pb s' = Ok x' /\ ~ only_adds x x'.
Proof.
  exists (wd_schema [wd_id] [wd_id; wd_name]), (wd_schema [wd_id] [wd_id; wd_mail; wd_name]). eexists. eexists. split; [|split; [|split; [|split]]].
  - apply wd_widened; added.
  - constructor; [|constructor; [|constructor]]; left; intros c I; cbn in I; repeat (destruct I as [<-|I]; [reflexivity|]); destruct I.
  - vm_compute. reflexivity.
  - vm_compute. reflexivity.
  - apply not_adds. vm_compute. reflexivity.
Qed.
