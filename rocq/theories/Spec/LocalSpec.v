(** Adding tables to a schema: what was generated before stays (C97, C98) *)
From Coq Require Import String Ascii List NArith Bool.
From Verif.Model Require Import GoString Octopus Liquibase.
From Verif.Spec Require Import Text Reading.
Import ListNotations.
Local Open Scope string_scope.

(** [sub l l']: [l'] is [l] with elements added anywhere; nothing is removed, changed or moved *)
Inductive sub {A : Type} : list A -> list A -> Prop :=
| sub_nil : sub [] []
| sub_keep : forall x l l', sub l l' -> sub (x :: l) (x :: l')
| sub_add : forall x l l', sub l l' -> sub l (x :: l').

(** the lines of a file; what follows the last end of a line counts if it is not empty *)
Definition file_lines (x : string) : list string :=
  match rev (lines x) with "" :: r => rev r | _ => lines x end.
(** [y] is [x] with lines added *)
Definition only_adds (x y : string) : Prop := sub (file_lines x) (file_lines y).

(** [s'] is [s] with tables added *)
Definition grown (s s' : schema) : Prop :=
  s_author s' = s_author s /\ s_name s' = s_name s /\ s_version s' = s_version s /\ sub (s_tables s) (s_tables s').

Definition named (n : string) (ts : list table) : list table := filter (fun t => String.eqb (t_name t) n) ts.

(** no added table has a name that is referred to in [s] *)
Definition same_targets (s s' : schema) : Prop :=
  forall t c r, In t (s_tables s) -> In c (t_cols t) -> c_ref c = Some r ->
  named (ref_table r) (s_tables s') = named (ref_table r) (s_tables s).

Fixpoint starts_with (p s : string) : bool :=
  match p, s with
  | EmptyString, _ => true
  | String c p', String d s' => Ascii.eqb c d && starts_with p' s'
  | _, _ => false
  end.
(** the lines that are no import statements of Python *)
Definition besides_imports (x : string) : list string := filter (fun l => negb (starts_with "from " l)) (file_lines x).

(** change sets without their ids *)
Definition what_changes (cs : lq_cset) : string * bool * list lq_change := (lq_author cs, lq_pre cs, lq_changes cs).
