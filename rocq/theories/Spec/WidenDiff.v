(** Adding columns to the tables of a schema: comparisons (C146) *)
From Coq Require Import String List NArith Bool.
From Verif.Model Require Import GoString Octopus Liquibase.
Import ListNotations.
Local Open Scope string_scope.

(** the names that only the columns of [t'] have, in order *)
Definition new_names (t t' : table) : list string :=
  filter (fun n => negb (existsb (String.eqb n) (map c_name (t_cols t)))) (map c_name (t_cols t')).
(** the column is put where it stands in the table: behind the one before it *)
Definition put_right (t : table) (lc : lq_column) : Prop :=
  exists pre c post, t_cols t = (pre ++ c :: post)%list /\ lc_name lc = c_name c /\
    lc_after lc = last (map c_name pre) "".

(** one change set for each table with new columns, which adds these and does nothing else; the change sets are numbered,
    the first one has the number after [n] *)
Inductive only_new (author : string) : nat -> list (table * table) -> list lq_cset -> Prop :=
| new_end : forall n, only_new author n [] []
| new_none : forall n t t' ps css, new_names t t' = [] -> only_new author n ps css -> only_new author n ((t, t') :: ps) css
| new_some : forall n t t' ps css lcs, new_names t t' <> [] -> map lc_name lcs = new_names t t' -> Forall (put_right t') lcs ->
    only_new author (S n) ps css ->
    only_new author n ((t, t') :: ps) (mkLqCS (itoa (N.of_nat (S n)) ++ "-1") author false [LqAddColumn (t_name t') lcs] :: css).
