(** Going through MySQL DDL again and again: exporting a schema and importing the text that was exported *)
From Coq Require Import String List.
From Verif.Model Require Import GoString Octopus Common Mysql.
From Verif.Spec Require Import MysqlGrammar.
Import ListNotations.
Local Open Scope string_scope.

Definition one_trip (reserved : string -> bool) (suffix : string) (s s' : schema) : Prop :=
  exists stmts, read_sql reserved (my_export None suffix s) = Some stmts /\ import_sql [] "" "" stmts = Ok s'.

Inductive trips (reserved : string -> bool) (suffix : string) : nat -> schema -> schema -> Prop :=
| trips_none s : trips reserved suffix 0 s s
| trips_more n s s' s'' : one_trip reserved suffix s s' -> trips reserved suffix n s' s'' -> trips reserved suffix (S n) s s''.
