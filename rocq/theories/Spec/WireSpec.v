(** Messages of one version of a schema, read by programs made for another one *)
From Coq Require Import String List ZArith.
From Verif.Model Require Import Octopus.
From Verif.Spec Require Import ProtobufSpec.
Import ListNotations.

(** the new schema has the tables of the old one, each with columns added at its end, if any, and perhaps other tables *)
Definition columns_added (s s' : schema) : Prop :=
  NoDup (map t_name (s_tables s')) /\
  forall t, In t (s_tables s) -> exists t' more, In t' (s_tables s') /\ t_name t' = t_name t /\ t_group t' = t_group t /\
    t_cols t' = (t_cols t ++ more)%list.

(** programs made for l understand what programs made for l' send, and the other way round: all messages are there, all
    their fields have the same name, type and number, and no number means something else (protobuf.dev, Updating A
    Message Type) *)
Definition still_understood (l l' : list pitem) : Prop :=
  forall n fs, In (PMessage n fs) l -> exists fs', In (PMessage n fs') l' /\
    forall f, In f fs -> In f fs' /\ forall g, In g fs' -> rf_tag g = rf_tag f -> g = f.

(** tables with references get no columns, or the numbers of the references start above those of all columns *)
Definition room_left (start : Z) (decreasing : bool) (s s' : schema) : Prop :=
  forall t t', In t (s_tables s) -> In t' (s_tables s') -> t_name t' = t_name t ->
    t_cols t' = t_cols t \/ table_refs t = [] \/ (decreasing = false /\ (Z.of_nat (length (t_cols t')) < start)%Z).
