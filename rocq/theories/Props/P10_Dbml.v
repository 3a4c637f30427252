(** Properties of the DBML export (/repo/format/dbml) *)
From Coq Require Import String Ascii List NArith Bool Sorting.Permutation.
From Verif.Model Require Import GoString Util Octopus Dbml.
From Verif.Spec Require Import Text Reading OctopusSpec DbmlSpec.
From Verif.Proofs Require Import DbmlProofs.
Import ListNotations.
Local Open Scope string_scope.

(** C37. Full statement: for every schema. Here for schemas whose names need no quoting in DBML, whose
    descriptions contain no double quote or line break, and whose defaults are legal the way they are
    written (see C59). The text is read back by an independent reader: it holds all table definitions
    in order with all their column settings, a reference is inline exactly if its target is defined
    further up, and inline references and Ref lines together are the references of the schema, each
    once. *)
Theorem C37_references_partial : forall f s, dbml_ok s -> exists ds ls,
  read_dbml (export_dbml f s) = Some (map ITable ds ++ map IRef ls)%list /\
  tables_described [] (s_tables s) ds /\
  Permutation (flat_map inline_links ds ++ ls) (schema_links s).
Proof. exact dbml_reads. Qed.
Print Assumptions C37_references_partial.

(** As stated it is false: nothing is escaped, and so no reader can tell the references of these two schemas apart. *)
Theorem C37_refuted : exists s1 s2, valid_schema s1 /\ valid_schema s2 /\
  (forall f, export_dbml f s1 = export_dbml f s2) /\ length (schema_links s1) <> length (schema_links s2).
Proof. exact dbml_ambiguous. Qed.
Print Assumptions C37_refuted.

Example C37_case : dbml_ok dbml_plain /\
  export_dbml None dbml_plain =
"Table group {
  id int64 [pk, not null, note: ""unique, id""]
  owner int64 [default: 0]
}

Table user {
  name varchar(40) [unique, not null, default: 'it, no']
  group_id int64 [ref: - group.id]
  boss int64
}

Ref: group.owner > user.id
Ref: user.boss > user.id" /\
  length (schema_links dbml_plain) = 3.
Proof. split; [exact dbml_plain_ok|]. split; vm_compute; reflexivity. Qed.

(** C38. Full statement: the text defines exactly the tables that pass the filter. False: the filter is
    never looked at (C38_groups_refuted). What holds: all tables are defined, and so the statement is
    true exactly if the filter lets all of them pass. *)
Theorem C38_groups_partial : forall f s, dbml_ok s -> exists items,
  read_dbml (export_dbml f s) = Some items /\
  defines items = map t_name (s_tables s) /\
  (defines items = map t_name (filter (passes f) (s_tables s)) <->
   forall t, In t (s_tables s) -> passes f t = true).
Proof. exact dbml_filter_exact. Qed.
Print Assumptions C38_groups_partial.

Theorem C38_groups_refuted : exists groups s items, dbml_ok s /\
  read_dbml (export_dbml (get_table_filter groups) s) = Some items /\
  defines items <> map t_name (filter (passes (get_table_filter groups)) (s_tables s)).
Proof. exact dbml_filter_witness. Qed.
Print Assumptions C38_groups_refuted.

Example C38_case : dbml_ok dbml_plain /\
  option_map defines (read_dbml (export_dbml (get_table_filter "a") dbml_plain)) = Some ["group"; "user"] /\
  map t_name (filter (passes (get_table_filter "a")) (s_tables dbml_plain)) = ["group"].
Proof. split; [exact dbml_plain_ok|]. split; vm_compute; reflexivity. Qed.

(** C59. Full statement: the text of every valid schema with plain names is legal DBML. False: a
    function default and the default of an enum are written without quotes. What holds: under
    [dbml_default_ok] the column is legal and the default reads as the right value. *)
Theorem C59_defaults_partial : forall above c, dbml_column_ok c -> dbml_default_ok c -> exists d,
  read_dcolumn (dbml_column above c) = Some d /\
  (text_type (c_type c) -> forall v, In (SDefault v) (d_settings d) <-> c_default c <> "" /\ v = DText (c_default c)) /\
  (~ text_type (c_type c) -> forall v, In (SDefault v) (d_settings d) <-> c_default c <> "" /\ v = DLiteral (c_default c)).
Proof. exact dbml_default_reads. Qed.
Print Assumptions C59_defaults_partial.

Theorem C59_defaults_refuted : forall c, In c [dbml_created; dbml_kind] ->
  valid_column c /\ dbml_column_ok c /\ read_dbml (export_dbml None (dbml_stamped c)) = None.
Proof. exact dbml_default_witness. Qed.
Print Assumptions C59_defaults_refuted.

Example C59_case :
  (dbml_column [] dbml_created, dbml_column [] dbml_kind)
  = ("  created_at datetime [not null, default: fn::CURRENT_TIMESTAMP]", "  kind enum [not null, default: a]").
Proof. vm_compute. reflexivity. Qed.
