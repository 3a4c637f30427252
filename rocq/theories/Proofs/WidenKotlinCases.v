(** Columns whose addition changes other lines of Kotlin classes (C141) *)
From Coq Require Import String Ascii List NArith Bool.
From Verif.Model Require Import GoString Util Octopus Common Jpa.
From Verif.Spec Require Import Text Reading LocalSpec WidenSpec WidenSources WidenKotlin.
From Verif.Proofs Require Import LocalProofs WidenCases.
Import ListNotations.
Local Open Scope string_scope.

Definition wk_opt : kt_opt := mkKtOpt (mkAM "" [] false) (mkPM "" [] false) None "" "store" "VRelation" [] "store.repo" "_uq".
Definition wk_files (s : schema) : list (string * string) * kt_end :=
  kt_generate same_word same_word same_word (String.concat "/") wk_opt s "out".
Definition wk_col (n : string) : column := mkCol n "date" "" 0 0 true false false false "" "" [] None.
Definition wk_code : column := mkCol "code" "varchar" "" 40 0 true false true false "" "" [] None.

Lemma not_files : forall l l', forallb (fun p => subb (file_lines (snd (fst p))) (file_lines (snd (snd p)))) (combine l l') = false -> ~ files_add l l'.
Proof.
  intros l l' E F. induction F as [|f f' l l' [_ S] F IH]; [discriminate|]. cbn [combine forallb] in E.
  apply andb_false_iff in E as [E|E]; [|auto]. cbn [fst snd] in E. revert E S. apply not_adds.
Qed.
Ltac one_last := intros a c E; destruct a as [|? [|? [|? [|? ?]]]]; cbn in E; try discriminate; injection E; intros; subst.

(** a column at the end: the one before gets a comma *)
Lemma kotlin_last_not : exists s s' l l', widened s s' /\ Forall2 key_kept (s_tables s) (s_tables s') /\ Forall2 unique_kept (s_tables s) (s_tables s') /\
  wk_files s = (l, KtDone) /\ wk_files s' = (l', KtDone) /\ ~ files_add l l'.
Proof.
  exists (wd_schema [wd_id] [wd_id; wd_name]), (wd_schema [wd_id] [wd_id; wd_name; wd_mail]). eexists. eexists. split; [|split; [|split; [|split; [|split]]]].
  - apply wd_widened; added.
  - constructor; [|constructor; [|constructor]]; reflexivity.
  - constructor; [|constructor; [|constructor]]; reflexivity.
  - vm_compute. reflexivity.
  - vm_compute. reflexivity.
  - apply not_files. vm_compute. reflexivity.
Qed.
(** a second unique column: the constraint of the table changes *)
Lemma kotlin_unique_not : exists s s' l l', widened s s' /\ Forall2 key_kept (s_tables s) (s_tables s') /\ Forall2 last_kept (s_tables s) (s_tables s') /\
  wk_files s = (l, KtDone) /\ wk_files s' = (l', KtDone) /\ ~ files_add l l'.
Proof.
  exists (wd_schema [wd_id] [wd_id; wd_name]), (wd_schema [wd_id] [wd_id; wk_code; wd_name]). eexists. eexists. split; [|split; [|split; [|split; [|split]]]].
  - apply wd_widened; added.
  - constructor; [|constructor; [|constructor]]; reflexivity.
  - constructor; [|constructor; [|constructor]]; one_last; [exists []|exists [wd_id; wk_code]]; reflexivity.
  - vm_compute. reflexivity.
  - vm_compute. reflexivity.
  - apply not_files. vm_compute. reflexivity.
Qed.
(** a second column of the primary key: the repository gets another id *)
Lemma kotlin_key_not : exists s s' l l', widened s s' /\ Forall2 unique_kept (s_tables s) (s_tables s') /\ Forall2 last_kept (s_tables s) (s_tables s') /\
  wk_files s = (l, KtDone) /\ wk_files s' = (l', KtDone) /\ ~ files_add l l'.
Proof.
  exists (wd_schema [wd_id] [wd_id; wd_name]), (wd_schema [wd_id] [wd_id; wd_part; wd_name]). eexists. eexists. split; [|split; [|split; [|split; [|split]]]].
  - apply wd_widened; added.
  - constructor; [|constructor; [|constructor]]; reflexivity.
  - constructor; [|constructor; [|constructor]]; one_last; [exists []|exists [wd_id; wd_part]]; reflexivity.
  - vm_compute. reflexivity.
  - vm_compute. reflexivity.
  - apply not_files. vm_compute. reflexivity.
Qed.
