(** Columns added to tables: SQLAlchemy classes (C142) *)
From Coq Require Import String Ascii List NArith Bool.
From Verif.Model Require Import GoString Util Octopus Common Sqlalchemy.
From Verif.Spec Require Import Text Reading LocalSpec WidenSpec WidenPython.
From Verif.Proofs Require Import LocalProofs WidenCases WidenPythonProofs.
Import ListNotations.
Local Open Scope string_scope.

(** C142. If columns are added to tables, the lines of the generated SQLAlchemy files stay and lines are added. False: the
    line that imports the types changes, *)
Theorem C142_refuted : exists s s', widened s s' /\ Forall2 constraint_kept (s_tables s) (s_tables s') /\
  ~ Forall2 (fun f f' => only_adds (snd f) (snd f')) (wp_files s "out.py") (wp_files s' "out.py").
Proof. exact python_imports_not. Qed.
Print Assumptions C142_refuted.

(** and even without the imports: a third unique column changes the constraint. *)
Theorem C142_unique_refuted : exists s s', widened s s' /\ ~ files_add_besides (wp_files s "out.py") (wp_files s' "out.py").
Proof. exact python_unique_not. Qed.
Print Assumptions C142_unique_refuted.

(** True of everything but the imports, for one file and for one file per table, if no constraint of several columns gets
    another one; the files are the same and are written in the same order. *)
Theorem C142_partial : forall camel snake o g s s' output, so_filter o = get_table_filter g -> widened s s' ->
  Forall2 constraint_kept (s_tables s) (s_tables s') ->
  files_add_besides (sa_generate camel snake o s output) (sa_generate camel snake o s' output).
Proof. exact python_widens. Qed.
Print Assumptions C142_partial.

(** Two columns are added, one of which is the second unique one. *)
Definition wp_old : schema := wd_schema [wd_id; wd_boss] [wd_id; wd_name].
Definition wp_new : schema := wd_schema [wd_id; wd_boss] [wp_uq "code"; wd_id; wd_name; wd_mail].
Example C142_case : widened wp_old wp_new /\ Forall2 constraint_kept (s_tables wp_old) (s_tables wp_new) /\
  map (fun f => (fst f, length (besides_imports (snd f)))) (wp_files wp_old "out.py") = [("out.py", 16)] /\
  map (fun f => (fst f, length (besides_imports (snd f)))) (wp_files wp_new "out.py") = [("out.py", 19)] /\
  map (fun f => (fst f, length (besides_imports (snd f)))) (wp_files wp_old "out") = [("out/group.py", 9); ("out/user.py", 9)] /\
  map (fun f => (fst f, length (besides_imports (snd f)))) (wp_files wp_new "out") = [("out/group.py", 9); ("out/user.py", 12)].
Proof.
  refine (conj _ (conj _ (conj _ (conj _ (conj _ _))))).
  - apply wd_widened; added.
  - constructor; [|constructor; [|constructor]]; left; cbn; auto with arith.
  - vm_compute. reflexivity.
  - vm_compute. reflexivity.
  - vm_compute. reflexivity.
  - vm_compute. reflexivity.
Qed.
