(** What a valid schema is, written down independently of the code that checks it. *)
From Coq Require Import String Ascii List NArith Bool Sorting.Permutation Sorting.Sorted.
From Verif.Model Require Import GoString Octopus.
From Verif.Spec Require Import Order Text.
Import ListNotations.
Local Open Scope string_scope.

(** ** Types *)
Definition sized (base : string) (bits : list string) : list string := map (append base) bits.
Definition integer_types : list string := sized "int" ["8"; "16"; "24"; "32"; "64"].
Definition octopus_types : list string :=
  (integer_types ++ sized "text" ["8"; "16"; "24"; "32"] ++ sized "blob" ["8"; "16"; "24"; "32"]
   ++ ["boolean"; "bit"; "char"; "varchar"; "binary"; "varbinary";
       "float"; "double"; "decimal"; "date"; "time"; "datetime"; "year";
       "enum"; "set"; "json"; "geometry"; "point"])%list.

(** docs/octopus-format.md:90-111, names that are accepted besides the ones above *)
Definition documented_aliases : list (string * string) :=
  [("string", "varchar"); ("tinyint", "int8"); ("smallint", "int16"); ("mediumint", "int24");
   ("int", "int32"); ("integer", "int32"); ("bigint", "int64"); ("long", "int64");
   ("numeric", "decimal"); ("real", "double"); ("timestamp", "datetime");
   ("tinyblob", "blob8"); ("blob", "blob16"); ("mediumblob", "blob24"); ("longblob", "blob32");
   ("tinytext", "text8"); ("text", "text16"); ("mediumtext", "text24"); ("longtext", "text32")].

(** [t'] is the canonical spelling of type [t] *)
Definition canonical (t t' : string) : Prop :=
  In (to_lower t, t') documented_aliases \/
  (~ In (to_lower t) (map fst documented_aliases) /\ t' = to_lower t).

(** ** Valid columns *)
Definition valid_column (c : column) : Prop :=
  c_name c <> "" /\
  In (c_type c) octopus_types /\
  (c_autoinc c = true -> In (c_type c) integer_types) /\
  (c_type c = "enum" -> c_values c <> []) /\
  (c_type c = "set" -> 1 <= length (c_values c) <= 64).

(** [c'] is [c] with its type in canonical spelling and auto-increment dropped if the type
    does not allow it; nothing else differs *)
Definition column_repaired (c c' : column) : Prop :=
  canonical (c_type c) (c_type c') /\
  (c_autoinc c' = true <-> c_autoinc c = true /\ In (c_type c') integer_types) /\
  c_name c' = c_name c /\ c_desc c' = c_desc c /\ c_size c' = c_size c /\ c_scale c' = c_scale c /\
  c_notnull c' = c_notnull c /\ c_pk c' = c_pk c /\ c_uq c' = c_uq c /\
  c_default c' = c_default c /\ c_onupdate c' = c_onupdate c /\ c_values c' = c_values c /\
  c_ref c' = c_ref c.

Definition repairable (c : column) : Prop := exists c', column_repaired c c' /\ valid_column c'.

(** ** Tables and schemas *)
Definition table_repaired (t t' : table) : Prop :=
  Forall2 column_repaired (t_cols t) (t_cols t') /\
  t_name t' = t_name t /\ t_desc t' = t_desc t /\ t_group t' = t_group t /\
  t_class t' = t_class t /\ t_indices t' = t_indices t.

Definition columns_of (s : schema) : list column := flat_map t_cols (s_tables s).
Definition valid_schema (s : schema) : Prop := forall c, In c (columns_of s) -> valid_column c.

(** by group, then by name *)
Definition table_le (a b : table) : Prop :=
  bytes_lt (t_group a) (t_group b) \/
  (t_group a = t_group b /\ (t_name a = t_name b \/ bytes_lt (t_name a) (t_name b))).

(** what sort.Sort promises: a permutation in which no element is Less than its predecessor *)
Definition sorts_tables (sortf : list table -> list table) : Prop :=
  forall l, Permutation (sortf l) l /\ Sorted (fun a b => table_less b a = false) (sortf l).

Definition distinct_table_keys (s : schema) : Prop :=
  NoDup (map (fun t => (t_group t, t_name t)) (s_tables s)).

(** sizes and scales fit their 16 bit fields *)
Definition fits_u16 (s : schema) : Prop :=
  forall c, In c (columns_of s) -> (c_size c < 65536)%N /\ (c_scale c < 65536)%N.
