(** Properties of the import of octopus v1 files (/repo/format/ojson) *)
From Coq Require Import String Ascii List NArith Bool Sorting.Permutation Sorting.Sorted.
From Verif.Model Require Import GoString Util Octopus Common Ojson.
From Verif.Spec Require Import OctopusSpec OjsonSpec.
From Verif.Proofs Require Import OjsonProofs OctopusProofs.
Import ListNotations.
Local Open Scope string_scope.

(** C36. Full statement: every column keeps name, description, size, scale, flags, default value and
    reference, and every table its class name. False for default value and class name
    (C36_default_refuted), and the auto-increment flag is dropped from types that are not int or long.
    Missing here: exactly these. *)
Theorem C36_import_v1_partial : forall sortf s s', sorts_v1 sortf -> import_v1 sortf s = Ok s' ->
  s_author s' = o_author s /\ s_name s' = o_sname s /\ s_version s' = o_version s /\
  exists ts, Permutation ts (o_tables s) /\ Forall2 same_table ts (s_tables s').
Proof. exact import_v1_keeps. Qed.
Print Assumptions C36_import_v1_partial.

(** The import fails with a panic exactly if a column of a known type has no name. *)
Theorem C36_import_v1_panic : forall sortf s, sorts_v1 sortf ->
  (import_v1 sortf s = Panic <-> exists c, In c (v1_columns s) /\ v1_known (o_type c) /\ o_name c = "").
Proof. exact import_v1_panics. Qed.
Print Assumptions C36_import_v1_panic.

(** What happens to the rest, for every schema: the class name is always lost and the default value
    is always the description; references have no relationship. *)
Theorem C36_class_default_lost : forall sortf s s' t', import_v1 sortf s = Ok s' -> In t' (s_tables s') ->
  t_class t' = "" /\ t_indices t' = [] /\
  forall c', In c' (t_cols t') -> c_default c' = c_desc c' /\ c_onupdate c' = "" /\ c_values c' = [] /\
    forall r, c_ref c' = Some r -> ref_rel r = "".
Proof. exact in_import. Qed.
Print Assumptions C36_class_default_lost.

Theorem C36_default_refuted : exists sortf s s' t t' c c', sorts_v1 sortf /\ import_v1 sortf s = Ok s' /\
  o_tables s = [t] /\ s_tables s' = [t'] /\ In c (o_cols t) /\ In c' (t_cols t') /\ c_name c' = o_name c /\
  NoDup (map o_name (o_cols t)) /\ c_default c' <> o_default c /\ t_class t' <> o_class t.
Proof. exact v1_default_witness. Qed.
Print Assumptions C36_default_refuted.

(** The command then normalizes and writes the schema (cli.go): if every type is a v1 type this
    succeeds, and the file written holds a valid schema. *)
Theorem C36_then_valid : forall sortf sortf2 s s', sorts_v1 sortf -> sorts_tables sortf2 ->
  import_v1 sortf s = Ok s' -> (forall c, In c (v1_columns s) -> v1_known (o_type c)) ->
  exists s2, normalize sortf2 s' = (s2, None) /\ valid_schema s2.
Proof. exact import_v1_valid. Qed.
Print Assumptions C36_then_valid.

Example C36_case : sorts_v1 isort_v1 /\
  import_v1 isort_v1 v1_user =
    Ok (mkSchema "me" "db" "1"
      [mkTable "user"
        [mkCol "id" "long" "row id" 0 0 true true false true "row id" "" [] None;
         mkCol "name" "string" "login name" 40 0 true false true false "login name" "" [] None;
         mkCol "group_id" "long" "" 0 0 false false false false "" "" [] (Some (mkRef "group" "id" ""))]
        "all users" "common" "" []]) /\
  import_v1 isort_v1 v1_unnamed = Panic /\
  v1_known "BigInt" /\ ~ v1_known "int64".
Proof.
  split; [exact isort_v1_sorts|]. split; [vm_compute; reflexivity|]. split; [vm_compute; reflexivity|].
  split; [exists "long"; now apply v1_type_named|]. now apply v1_type_unknown.
Qed.
