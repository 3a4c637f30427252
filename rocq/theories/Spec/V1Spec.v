(** Octopus v1 schema files as JSON documents: the members are those of the struct tags in
    /repo/format/ojson (column.go:9-26, table.go:12-18, 71-76) *)
From Coq Require Import String Ascii List NArith Bool Sorting.Permutation.
From Verif.Model Require Import GoString Octopus Json Ojson.
From Verif.Spec Require Import Text OctopusSpec OjsonSpec FormatSpec.
Import ListNotations.
Local Open Scope string_scope.

Definition v1_doc_reference (j : json) (r : v1_reference) : Prop :=
  exists l, j = JObj l /\ has_only ["table"; "column"] l /\
    str_member l "table" (o_ref_table r) /\ str_member l "column" (o_ref_column r).
Definition v1_doc_column (j : json) (c : v1_column) : Prop :=
  exists l, j = JObj l /\
    has_only ["name"; "type"; "description"; "size"; "scale"; "notnull"; "pk"; "unique"; "autoinc"; "default"; "ref"] l /\
    str_member l "name" (o_name c) /\ str_member l "type" (o_type c) /\ str_member l "description" (o_desc c) /\
    int_member l "size" (o_size c) /\ int_member l "scale" (o_scale c) /\
    bool_member l "notnull" (o_notnull c) /\ bool_member l "pk" (o_pk c) /\ bool_member l "unique" (o_uq c) /\
    bool_member l "autoinc" (o_autoinc c) /\ str_member l "default" (o_default c) /\
    ((exists x r, In ("ref", x) l /\ o_ref c = Some r /\ v1_doc_reference x r) \/ absent l "ref" /\ o_ref c = None).
Definition v1_doc_table (j : json) (t : v1_table) : Prop :=
  exists l, j = JObj l /\ has_only ["name"; "columns"; "desc"; "group"; "className"] l /\
    str_member l "name" (o_tname t) /\ list_member v1_doc_column l "columns" (o_cols t) /\
    str_member l "desc" (o_tdesc t) /\ str_member l "group" (o_group t) /\ str_member l "className" (o_class t).
Definition v1_doc (j : json) (s : v1_schema) : Prop :=
  exists l, j = JObj l /\ has_only ["author"; "name"; "version"; "tables"] l /\
    str_member l "author" (o_author s) /\ str_member l "name" (o_sname s) /\ str_member l "version" (o_version s) /\
    list_member v1_doc_table l "tables" (o_tables s).

(** sizes that fit, and columns that have a name and a v1 type *)
Definition v1_fits_u16 (s : v1_schema) : Prop :=
  forall c, In c (v1_columns s) -> (o_size c < 65536)%N /\ (o_scale c < 65536)%N.
Definition v1_usable (s : v1_schema) : Prop :=
  forall c, In c (v1_columns s) -> v1_known (o_type c) /\ o_name c <> "".
(** no two tables of a group have the same name *)
Definition v1_distinct (s : v1_schema) : Prop := NoDup (map (fun t => (o_group t, o_tname t)) (o_tables s)).

(** the octopus type for a v1 type *)
Definition v1_types : list (string * string) :=
  [("string", "varchar"); ("int", "int32"); ("long", "int64"); ("boolean", "boolean"); ("decimal", "decimal");
   ("float", "float"); ("text", "text16"); ("date", "date"); ("time", "time"); ("datetime", "datetime"); ("blob", "blob16")].
Definition v1_type_kept (c : v1_column) (c' : column) : Prop :=
  exists t, v1_named (o_type c) t /\ In (t, c_type c') v1_types /\
    (c_autoinc c' = true <-> o_autoinc c = true /\ (t = "int" \/ t = "long")).
Definition v1_table_kept (t : v1_table) (t' : table) : Prop :=
  t_name t' = o_tname t /\ t_desc t' = o_tdesc t /\ t_group t' = o_group t /\
  Forall2 (fun c c' => same_column c c' /\ v1_type_kept c c') (o_cols t) (t_cols t').
Definition v1_kept (s : v1_schema) (s' : schema) : Prop :=
  s_author s' = o_author s /\ s_name s' = o_sname s /\ s_version s' = o_version s /\
  exists ts, Permutation ts (o_tables s) /\ Forall2 v1_table_kept ts (s_tables s').
