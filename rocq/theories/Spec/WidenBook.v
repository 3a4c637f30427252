(** Adding columns to the tables of a schema: workbooks (C145) *)
From Coq Require Import String List.
From Verif.Spec Require Import LocalSpec.
Import ListNotations.

(** the same sheet with rows added *)
Definition sheet_adds (x y : string * list (list string)) : Prop := fst y = fst x /\ sub (snd x) (snd y).
(** the same sheets in the same order, with rows added *)
Definition book_adds (x y : list (string * list (list string))) : Prop := Forall2 sheet_adds x y.
