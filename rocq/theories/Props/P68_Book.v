(** Columns added to tables: workbooks (C145) *)
From Coq Require Import String Ascii List NArith Bool.
From Verif.Model Require Import GoString Util Octopus Common Xlsx.
From Verif.Spec Require Import LocalSpec WidenSpec WidenBook.
From Verif.Proofs Require Import LocalProofs WidenCases WidenBookProofs.
Import ListNotations.
Local Open Scope string_scope.

(** C145. If columns are added to tables, the workbook has the same sheets in the same order, and these only get rows; *)
Theorem C145_book : forall name_ok use_null s s' wb, widened s s' -> export_xlsx name_ok use_null s = Some wb ->
  exists wb', export_xlsx name_ok use_null s' = Some wb' /\ book_adds wb wb'.
Proof. exact book_widens. Qed.
Print Assumptions C145_book.
(** a workbook that could not be written still cannot. *)
Theorem C145_error : forall name_ok use_null s s', widened s s' -> export_xlsx name_ok use_null s = None ->
  export_xlsx name_ok use_null s' = None.
Proof. exact book_fails. Qed.
Print Assumptions C145_error.

(** A column is added to each table. *)
Definition wb_old : schema := wd_schema [wd_id] [wd_id; wd_name].
Definition wb_new : schema := wd_schema [wd_id; wd_boss] [wd_id; wd_mail; wd_name].
Example C145_case : exists wb wb', widened wb_old wb_new /\ export_xlsx (fun _ => true) false wb_old = Some wb /\
  export_xlsx (fun _ => true) false wb_new = Some wb' /\ map (fun x => length (snd x)) wb = [3; 7] /\ map (fun x => length (snd x)) wb' = [3; 9].
Proof.
  eexists. eexists. refine (conj _ (conj _ (conj _ (conj _ _)))).
  - apply wd_widened; added.
  - vm_compute. reflexivity.
  - vm_compute. reflexivity.
  - reflexivity.
  - reflexivity.
Qed.
(** With a group called Meta there is no workbook, whatever the columns. *)
Definition wb_meta (cs : list column) : schema := mkSchema "me" "store" "1" [mkTable "user" cs "" "Meta" "" []].
Example C145_error_case : widened (wb_meta [wd_id]) (wb_meta [wd_id; wd_name]) /\ export_xlsx (fun _ => true) false (wb_meta [wd_id]) = None.
Proof.
  split; [|reflexivity]. refine (conj eq_refl (conj eq_refl (conj eq_refl _))). constructor; [|constructor].
  refine (conj eq_refl (conj eq_refl (conj eq_refl (conj eq_refl (conj eq_refl _))))). added.
Qed.
