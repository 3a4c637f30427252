(** What saving and asking octopus v1 schemas is expected to do *)
From Coq Require Import String Ascii List NArith Bool Sorting.Permutation Sorting.Sorted.
From Verif.Model Require Import GoString Octopus Ojson.
From Verif.Spec Require Import OctopusSpec OjsonSpec JsonSpec.
Import ListNotations.
Local Open Scope string_scope.

(** the strings of a v1 schema *)
Definition v1_column_text (c : v1_column) : list string :=
  ([o_name c; o_type c; o_desc c; o_default c]
   ++ match o_ref c with Some r => [o_ref_table r; o_ref_column r] | None => [] end)%list.
Definition v1_table_text (t : v1_table) : list string :=
  ([o_tname t; o_tdesc t; o_group t; o_class t] ++ flat_map v1_column_text (o_cols t))%list.
Definition v1_utf8 (s : v1_schema) : Prop :=
  forall x, In x ([o_author s; o_sname s; o_version s] ++ flat_map v1_table_text (o_tables s))%list -> utf8 x.

(** the same column, except that its type has its usual name, and that only integers count up *)
Definition v1_column_repaired (c c' : v1_column) : Prop :=
  o_name c' = o_name c /\ o_desc c' = o_desc c /\ o_size c' = o_size c /\ o_scale c' = o_scale c /\
  o_notnull c' = o_notnull c /\ o_pk c' = o_pk c /\ o_uq c' = o_uq c /\ o_default c' = o_default c /\
  o_ref c' = o_ref c /\
  (forall t, v1_named (o_type c) t ->
     o_type c' = t /\ (o_autoinc c' = true <-> o_autoinc c = true /\ (t = "int" \/ t = "long"))) /\
  (~ v1_known (o_type c) -> o_type c' = o_type c /\ o_autoinc c' = o_autoinc c).
Definition v1_table_repaired (t t' : v1_table) : Prop :=
  o_tname t' = o_tname t /\ o_tdesc t' = o_tdesc t /\ o_group t' = o_group t /\ o_class t' = o_class t /\
  Forall2 v1_column_repaired (o_cols t) (o_cols t').
(** ... and the tables are sorted *)
Definition v1_repaired (s s' : v1_schema) : Prop :=
  o_author s' = o_author s /\ o_sname s' = o_sname s /\ o_version s' = o_version s /\
  (exists ts, Permutation ts (o_tables s) /\ Forall2 v1_table_repaired ts (o_tables s')) /\
  Sorted (fun a b => v1_table_less b a = false) (o_tables s').

(** ** Questions *)
Definition v1_keys (t : v1_table) (x : string) : Prop := exists c, In c (o_cols t) /\ o_pk c = true /\ o_name c = x.
Definition v1_uniques (t : v1_table) (x : string) : Prop := exists c, In c (o_cols t) /\ o_uq c = true /\ o_name c = x.
(** the same names, each once *)
Definition lists (l : list string) (P : string -> Prop) : Prop := NoDup l /\ forall x, In x l <-> P x.

(** the last element with that name, or none has it *)
Definition last_named {A} (name : A -> string) (l : list A) (n : string) (r : option A) : Prop :=
  match r with
  | Some x => exists l1 l2, l = (l1 ++ x :: l2)%list /\ name x = n /\ forall y, In y l2 -> name y <> n
  | None => forall y, In y l -> name y <> n
  end.
Definition first_named {A} (name : A -> string) (l : list A) (n : string) (r : option A) : Prop :=
  match r with
  | Some x => exists l1 l2, l = (l1 ++ x :: l2)%list /\ name x = n /\ forall y, In y l1 -> name y <> n
  | None => forall y, In y l -> name y <> n
  end.

(** nothing but the name and the reference differs *)
Definition v1_only_renamed (exclude_desc : bool) (c d : v1_column) : Prop :=
  o_type c = o_type d /\ (exclude_desc = false -> o_desc c = o_desc d) /\ o_size c = o_size d /\ o_scale c = o_scale d /\
  o_notnull c = o_notnull d /\ o_pk c = o_pk d /\ o_uq c = o_uq d /\ o_autoinc c = o_autoinc d /\ o_default c = o_default d.
