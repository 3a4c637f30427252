(** What a Liquibase change log says, independent of how it is computed *)
From Coq Require Import String List NArith Bool.
From Verif.Model Require Import Octopus Liquibase.
Import ListNotations.
Local Open Scope string_scope.

(** all changes of a change log, in order *)
Definition lq_all (css : list lq_cset) : list lq_change := flat_map lq_changes css.

(** names of tables a change removes / introduces *)
Definition lq_gone (ch : lq_change) : list string :=
  match ch with LqDropTable n => [n] | LqRenameTable _ old => [old] | _ => [] end.
Definition lq_appeared (ch : lq_change) : list string :=
  match ch with LqCreateTable n _ _ => [n] | LqRenameTable nw _ => [nw] | _ => [] end.
