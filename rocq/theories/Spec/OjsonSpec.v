(** What importing an octopus v1 schema is expected to keep *)
From Coq Require Import String Ascii List NArith Bool Sorting.Permutation Sorting.Sorted.
From Verif.Model Require Import GoString Octopus Ojson.
From Verif.Spec Require Import OctopusSpec.
Import ListNotations.
Local Open Scope string_scope.

(** the v1 types and their other names *)
Definition v1_names : list (string * list string) :=
  [("string", ["string"; "varchar"; "char"]); ("int", ["int"; "integer"; "smallint"]);
   ("long", ["long"; "bigint"]); ("boolean", ["boolean"; "bool"]);
   ("decimal", ["decimal"; "double"; "number"]); ("float", ["float"]); ("text", ["text"]);
   ("date", ["date"]); ("time", ["time"]); ("datetime", ["datetime"]); ("blob", ["blob"])].
(** [t] is a name of the v1 type [t'], in any letter case *)
Definition v1_named (t t' : string) : Prop :=
  exists names, In (t', names) v1_names /\ In (to_lower t) names.
Definition v1_known (t : string) : Prop := exists t', v1_named t t'.

Definition v1_columns (s : v1_schema) : list v1_column := flat_map o_cols (o_tables s).

(** every attribute but type, auto-increment and default *)
Definition same_column (c : v1_column) (c' : column) : Prop :=
  c_name c' = o_name c /\ c_desc c' = o_desc c /\ c_size c' = o_size c /\ c_scale c' = o_scale c /\
  c_notnull c' = o_notnull c /\ c_pk c' = o_pk c /\ c_uq c' = o_uq c /\
  match o_ref c, c_ref c' with
  | None, None => True
  | Some r, Some r' => ref_table r' = o_ref_table r /\ ref_column r' = o_ref_column r
  | _, _ => False
  end.

(** the type is the v1 type of that name; auto-increment is kept on integers *)
Definition same_type (c : v1_column) (c' : column) : Prop :=
  (forall t, v1_named (o_type c) t ->
     c_type c' = t /\ (c_autoinc c' = true <-> o_autoinc c = true /\ (t = "int" \/ t = "long"))) /\
  (~ v1_known (o_type c) -> c_type c' = o_type c /\ c_autoinc c' = o_autoinc c).

Definition same_table (t : v1_table) (t' : table) : Prop :=
  t_name t' = o_tname t /\ t_desc t' = o_tdesc t /\ t_group t' = o_group t /\
  Forall2 (fun c c' => same_column c c' /\ same_type c c') (o_cols t) (t_cols t').

(** what sort.Sort promises *)
Definition sorts_v1 (sortf : list v1_table -> list v1_table) : Prop :=
  forall l, Permutation (sortf l) l /\ Sorted (fun a b => v1_table_less b a = false) (sortf l).
