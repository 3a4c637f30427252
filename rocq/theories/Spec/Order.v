(** Byte-wise lexicographic order on strings, and sortedness; independent of the model. *)
From Coq Require Import String Ascii List Relations Sorting.Sorted.

Inductive bytes_lt : string -> string -> Prop :=
| blt_nil : forall c s, bytes_lt EmptyString (String c s)
| blt_head : forall x y s t, nat_of_ascii x < nat_of_ascii y -> bytes_lt (String x s) (String y t)
| blt_tail : forall x s t, bytes_lt s t -> bytes_lt (String x s) (String x t).

(** strictly increasing, hence without repetition *)
Definition strictly_increasing (l : list string) : Prop := StronglySorted bytes_lt l.
