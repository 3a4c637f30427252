(** Removing columns from the tables of a schema: comparisons (C147) *)
From Coq Require Import String List NArith Bool Sorting.Permutation.
From Verif.Model Require Import GoString Octopus.
From Verif.Spec Require Import Order WidenDiff.
Import ListNotations.
Local Open Scope string_scope.

(** one change set for each name, numbered n-1, n-2 and so on *)
Definition numbered {CS : Type} (mk : string -> string -> CS) (n : nat) (names : list string) : list CS :=
  map (fun p => mk (itoa (N.of_nat n) ++ "-" ++ itoa (N.of_nat (fst p))) (snd p)) (combine (seq 1 (length names)) names).
(** The pairs are the new and the old table. For each table that lost columns one change set for each of these, in the order
    of their names, and nothing else; [mk t id name] is the change set that drops the column. *)
Inductive only_gone {CS : Type} (mk : table -> string -> string -> CS) : nat -> list (table * table) -> list CS -> Prop :=
| gone_end : forall n, only_gone mk n [] []
| gone_none : forall n t t' ps css, new_names t t' = [] -> only_gone mk n ps css -> only_gone mk n ((t, t') :: ps) css
| gone_some : forall n t t' ps css names, new_names t t' <> [] -> Permutation names (new_names t t') -> strictly_increasing names ->
    only_gone mk (S n) ps css -> only_gone mk n ((t, t') :: ps) (numbered (mk t) (S n) names ++ css).
