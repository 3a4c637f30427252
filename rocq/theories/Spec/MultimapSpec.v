(** Taking a value out of a list while walking over it *)
From Coq Require Import List.
Import ListNotations.

(** every [v] is left out, except one that comes directly after a [v] that was left out *)
Inductive thinned {V : Type} (v : V) : list V -> list V -> Prop :=
| th_nil : thinned v [] []
| th_keep : forall x l l', x <> v -> thinned v l l' -> thinned v (x :: l) (x :: l')
| th_last : thinned v [v] []
| th_skip : forall y l l', thinned v l l' -> thinned v (v :: y :: l) (y :: l').

(** the list [l] filled up to [n] elements with [z], or cut after [n] elements *)
Inductive filled {V : Type} (z : V) : nat -> list V -> list V -> Prop :=
| fi_cut : forall l, filled z 0 l []
| fi_take : forall n x l l', filled z n l l' -> filled z (S n) (x :: l) (x :: l')
| fi_fill : forall n l', filled z n [] l' -> filled z (S n) [] (z :: l').
