(** Characters occurring in a string; independent of the model. *)
From Coq Require Import String Ascii List.

Fixpoint char_in (c : ascii) (s : string) : Prop :=
  match s with
  | EmptyString => False
  | String d s' => c = d \/ char_in c s'
  end.

(** all characters of a string satisfy P *)
Definition all_chars (P : ascii -> Prop) (s : string) : Prop := forall c, char_in c s -> P c.
