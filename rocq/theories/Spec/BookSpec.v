(** What a second trip through a workbook leaves of a schema that was read from one (C110) *)
From Coq Require Import String List NArith Bool.
From Verif.Model Require Import GoString Octopus.
From Verif.Spec Require Import JsonSpec.
Import ListNotations.
Local Open Scope string_scope.

(** on-update values are replaced by default values (see C35), nothing else *)
Definition settled_column (c : column) : column :=
  mkCol (c_name c) (c_type c) (c_desc c) (c_size c) (c_scale c) (c_notnull c) (c_pk c) (c_uq c) (c_autoinc c)
    (c_default c) (match c_onupdate c with "" => "" | _ => c_default c end) (c_values c) (c_ref c).
Definition settled_table (t : table) : table :=
  mkTable (t_name t) (map settled_column (t_cols t)) (t_desc t) (t_group t) (t_class t) (t_indices t).

(** types that stay: a scale only beside a size (65536 is read as 0), and not the word for a new table *)
Definition steady_type (c : column) : Prop :=
  (c_size c = 0%N -> c_scale c = 0%N /\ c_type c <> "table").

(** nothing to replace *)
Definition settled (c : column) : Prop := c_onupdate c = "" \/ c_onupdate c = c_default c.

(** the names and cells of a workbook are text, as in every XML document *)
Definition text_book (wb : list (string * list (list string))) : Prop :=
  forall sh, In sh wb -> utf8 (fst sh) /\ forall r x, In r (snd sh) -> In x r -> utf8 x.
