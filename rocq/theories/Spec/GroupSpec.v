(** The option "groups" and the schema without the other tables *)
From Coq Require Import String Ascii List.
From Verif.Model Require Import GoString Octopus.
From Verif.Spec Require Import Text.
Import ListNotations.
Local Open Scope string_scope.

(** the group of the table is named in the comma separated list; without a list every table is chosen *)
Definition chosen (opt : string) (t : table) : Prop :=
  opt = "" \/
  exists parts, (forall p, In p parts -> ~ char_in "," p) /\ opt = join "," parts /\ In (t_group t) parts.

(** the elements with a property, in the same order *)
Inductive picked {A} (P : A -> Prop) : list A -> list A -> Prop :=
| picked_none : picked P [] []
| picked_in : forall a l l', P a -> picked P l l' -> picked P (a :: l) (a :: l')
| picked_out : forall a l l', ~ P a -> picked P l l' -> picked P (a :: l) l'.

(** the schema with the chosen tables only *)
Definition only_chosen (opt : string) (s s' : schema) : Prop :=
  s_author s' = s_author s /\ s_name s' = s_name s /\ s_version s' = s_version s /\
  picked (chosen opt) (s_tables s) (s_tables s').

(** no chosen table refers to a table that is not chosen *)
Definition references_stay (opt : string) (s : schema) : Prop :=
  forall t c r u, In t (s_tables s) -> chosen opt t -> In c (t_cols t) -> c_ref c = Some r ->
    In u (s_tables s) -> t_name u = ref_table r -> chosen opt u.
