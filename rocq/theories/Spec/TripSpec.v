(** What a schema must be for its second export to MySQL DDL and import to change nothing *)
From Coq Require Import String List NArith Bool.
From Verif.Model Require Import GoString Octopus.
Import ListNotations.
Local Open Scope string_scope.

(** sizes and scales as they are in files: 16 bits *)
Definition sized (c : column) : Prop := (c_size c < 65536)%N /\ (c_scale c < 65536)%N.
Definition sized_table (t : table) : Prop := NoDup (map c_name (t_cols t)) /\ Forall sized (t_cols t).
