(** /repo/docs/octopus-format.md: what a schema file looks like, as a JSON document, and what it means *)
From Coq Require Import String Ascii List NArith Bool.
From Verif.Model Require Import GoString Octopus Json.
From Verif.Spec Require Import Text.
Import ListNotations.
Local Open Scope string_scope.

(** The members of an object: given at most once, and only those of a table of the document *)
Definition has_only (names : list string) (l : list (string * json)) : Prop :=
  NoDup (map fst l) /\ incl (map fst l) names.
Definition absent (l : list (string * json)) (k : string) : Prop := ~ In k (map fst l).

(** a member, or its default if it is not there *)
Definition str_member (l : list (string * json)) (k : string) (x : string) : Prop :=
  In (k, JStr x) l \/ absent l k /\ x = "".
Definition int_member (l : list (string * json)) (k : string) (x : N) : Prop :=
  In (k, JNum (itoa x)) l \/ absent l k /\ x = 0%N.
Definition bool_member (l : list (string * json)) (k : string) (x : bool) : Prop :=
  In (k, JBool x) l \/ absent l k /\ x = false.
Definition list_member {A} (meaning : json -> A -> Prop) (l : list (string * json)) (k : string) (x : list A) : Prop :=
  (exists a, In (k, JArr a) l /\ Forall2 meaning a x) \/ absent l k /\ x = [].
Definition str_meaning (j : json) (s : string) : Prop := j = JStr s.

(** octopus-format.md:68-76 *)
Definition doc_reference (j : json) (r : reference) : Prop :=
  exists l, j = JObj l /\ has_only ["table"; "column"; "relationship"] l /\
    str_member l "table" (ref_table r) /\ str_member l "column" (ref_column r) /\ str_member l "relationship" (ref_rel r).

(** octopus-format.md:25-44. The document says that "ref" is a list of references; [as_list] is that
    reading, with at most one reference. Otherwise "ref" is a reference, as in the example at the end of
    the document. *)
Definition ref_meaning (as_list : bool) (j : json) (r : option reference) : Prop :=
  if as_list
  then exists a, j = JArr a /\ match r with None => a = [] | Some r => exists x, a = [x] /\ doc_reference x r end
  else exists x, r = Some x /\ doc_reference j x.
Definition doc_column (as_list : bool) (j : json) (c : column) : Prop :=
  exists l, j = JObj l /\
    has_only ["name"; "type"; "desc"; "size"; "scale"; "notnull"; "pk"; "unique"; "autoinc"; "default"; "onupdate";
              "values"; "ref"] l /\
    str_member l "name" (c_name c) /\ str_member l "type" (c_type c) /\ str_member l "desc" (c_desc c) /\
    int_member l "size" (c_size c) /\ int_member l "scale" (c_scale c) /\
    bool_member l "notnull" (c_notnull c) /\ bool_member l "pk" (c_pk c) /\ bool_member l "unique" (c_uq c) /\
    bool_member l "autoinc" (c_autoinc c) /\ str_member l "default" (c_default c) /\
    str_member l "onupdate" (c_onupdate c) /\ list_member str_meaning l "values" (c_values c) /\
    ((exists x, In ("ref", x) l /\ ref_meaning as_list x (c_ref c)) \/ absent l "ref" /\ c_ref c = None).

(** octopus-format.md:78-85 *)
Definition doc_index (j : json) (i : index) : Prop :=
  exists l, j = JObj l /\ has_only ["name"; "columns"] l /\
    str_member l "name" (ix_name i) /\ list_member str_meaning l "columns" (ix_cols i).

(** octopus-format.md:12-23 *)
Definition doc_table (as_list : bool) (j : json) (t : table) : Prop :=
  exists l, j = JObj l /\ has_only ["name"; "columns"; "desc"; "group"; "className"; "indices"] l /\
    str_member l "name" (t_name t) /\ list_member (doc_column as_list) l "columns" (t_cols t) /\
    str_member l "desc" (t_desc t) /\ str_member l "group" (t_group t) /\ str_member l "className" (t_class t) /\
    list_member doc_index l "indices" (t_indices t).

(** octopus-format.md:5-10 *)
Definition doc_schema (as_list : bool) (j : json) (s : schema) : Prop :=
  exists l, j = JObj l /\ has_only ["author"; "name"; "version"; "tables"] l /\
    str_member l "author" (s_author s) /\ str_member l "name" (s_name s) /\ str_member l "version" (s_version s) /\
    list_member (doc_table as_list) l "tables" (s_tables s).

(** octopus-format.md:91-113, the column "MySQL mapping" *)
Definition documented_mysql : list (string * string) :=
  [("string", "varchar"); ("tinyint", "tinyint"); ("smallint", "smallint"); ("mediumint", "mediumint"); ("int", "int");
   ("integer", "int"); ("bigint", "bigint"); ("long", "bigint"); ("numeric", "decimal"); ("real", "double");
   ("timestamp", "datetime"); ("tinyblob", "tinyblob"); ("blob", "blob"); ("mediumblob", "mediumblob");
   ("longblob", "longblob"); ("tinytext", "tinytext"); ("text", "text"); ("mediumtext", "mediumtext");
   ("longtext", "longtext")].
(** those of them that take a size *)
Definition sized_mysql : list string := ["varchar"; "tinyint"; "smallint"; "mediumint"; "int"; "bigint"; "decimal"; "double"].

(** null where a list should have a table, a column or an index; names of members in any case *)
Definition member (j : json) (name : string) (v : json) : Prop :=
  exists l k, j = JObj l /\ In (k, v) l /\ to_lower k = name.
Definition element (j x : json) : Prop := exists a, j = JArr a /\ In x a.
Definition null_table (j : json) : Prop := exists ts, member j "tables" ts /\ element ts JNull.
Definition null_part (name : string) (j : json) : Prop :=
  exists ts t cs, member j "tables" ts /\ element ts t /\ member t name cs /\ element cs JNull.

(** ** A document that follows the description, but for null elements *)
Inductive padded : list json -> list json -> Prop :=
| padded_nil : padded [] []
| padded_null : forall l l', padded l l' -> padded l (JNull :: l')
| padded_keep : forall x l l', padded l l' -> padded (x :: l) (x :: l').
Definition padded_member {A} (meaning : json -> A -> Prop) (l : list (string * json)) (k : string) (x : list A) : Prop :=
  (exists a a', In (k, JArr a') l /\ padded a a' /\ Forall2 meaning a x) \/ absent l k /\ x = [].
Definition padded_table (j : json) (t : table) : Prop :=
  exists l, j = JObj l /\ has_only ["name"; "columns"; "desc"; "group"; "className"; "indices"] l /\
    str_member l "name" (t_name t) /\ padded_member (doc_column false) l "columns" (t_cols t) /\
    str_member l "desc" (t_desc t) /\ str_member l "group" (t_group t) /\ str_member l "className" (t_class t) /\
    padded_member doc_index l "indices" (t_indices t).
Definition padded_schema (j : json) (s : schema) : Prop :=
  exists l, j = JObj l /\ has_only ["author"; "name"; "version"; "tables"] l /\
    str_member l "author" (s_author s) /\ str_member l "name" (s_name s) /\ str_member l "version" (s_version s) /\
    padded_member padded_table l "tables" (s_tables s).
