(** What a program sees of a decoded schema, and documents without repeated members *)
From Coq Require Import String Ascii List NArith Bool.
From Verif.Model Require Import GoString Octopus Json JsonMerge.
From Verif.Spec Require Import FormatSpec.
Import ListNotations.
Local Open Scope string_scope.

(** the elements of a list of pointers that are not nil, and whether some are *)
Definition present {A} (l : list (option A)) : list A := flat_map (fun p => match p with Some a => [a] | None => [] end) l.
Definition some_nil {A} (l : list (option A)) : bool := existsb (fun p => match p with Some _ => false | None => true end) l.

Definition seen_table (g : gtable) : table :=
  let '(mkTable n _ d gr cl _) := g_rest g in
  mkTable n (map fst (present (sl_seen (g_cols g)))) d gr cl (map fst (present (sl_seen (g_idx g)))).
Definition seen_tables (g : gschema) : list gtable := present (sl_seen (g_tables g)).
Definition seen_schema (g : gschema) : schema :=
  let '(mkSchema a n v _) := g_head g in mkSchema a n v (map seen_table (seen_tables g)).

(** is there a nil table, column, index? *)
Definition nil_table (g : gschema) : bool := some_nil (sl_seen (g_tables g)).
Definition nil_column (g : gschema) : bool := existsb (fun t => some_nil (sl_seen (g_cols t))) (seen_tables g).
Definition nil_index (g : gschema) : bool := existsb (fun t => some_nil (sl_seen (g_idx t))) (seen_tables g).

(** an object has at most one member of that name, in any case *)
Definition once (name : string) (j : json) : Prop :=
  forall l, j = JObj l -> List.length (filter (fun kv => String.eqb name (to_lower (fst kv))) l) <= 1.
(** no list and no reference is given twice; nothing is said of the other members *)
Definition column_once (c : json) : Prop := once "values" c /\ once "ref" c.
Definition table_once (t : json) : Prop :=
  once "columns" t /\ once "indices" t /\
  (forall cs c, member t "columns" cs -> element cs c -> column_once c) /\
  (forall is i, member t "indices" is -> element is i -> once "columns" i).
Definition no_repeats (j : json) : Prop :=
  once "tables" j /\ forall ts t, member j "tables" ts -> element ts t -> table_once t.

(** the members of schemas, tables and columns that are no lists and no references; in lower case *)
Definition schema_scalars : list string := ["author"; "name"; "version"].
Definition table_scalars : list string := ["name"; "desc"; "group"; "classname"].
Definition column_scalars : list string := ["name"; "type"; "desc"; "size"; "scale"; "notnull"; "pk"; "unique"; "autoinc"; "default"; "onupdate"].
(** an object that gives such a member twice, and the object without the first *)
Definition twice (l1 l2 l3 : list (string * json)) (k k' : string) (v w : json) : json := JObj (l1 ++ (k, v) :: l2 ++ (k', w) :: l3).
Definition no_first (l1 l2 l3 : list (string * json)) (k' : string) (w : json) : json := JObj (l1 ++ l2 ++ (k', w) :: l3).
