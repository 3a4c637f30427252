(** Schemas whose tables have got other names (C149) *)
From Coq Require Import String List Bool Sorting.Permutation.
From Verif.Model Require Import Octopus Diff Liquibase.
Import ListNotations.
Local Open Scope string_scope.

Definition called (n : string) (t : table) : table :=
  mkTable n (t_cols t) (t_desc t) (t_group t) (t_class t) (t_indices t).
Definition renamed_by (ren : string -> string) (t : table) : table := called (ren (t_name t)) t.
(** Nothing but names of tables differs; [ren] has the new names. The tables may be in another order. *)
Definition only_renamed (ren : string -> string) (from to : schema) : Prop :=
  Permutation (s_tables to) (map (renamed_by ren) (s_tables from)).
Definition moved (ren : string -> string) (t : table) : bool := negb (String.eqb (ren (t_name t)) (t_name t)).
(** no new name is the old name of another table *)
Definition fresh_names (ren : string -> string) (from : schema) : Prop :=
  forall t, In t (s_tables from) -> moved ren t = true -> ~ In (ren (t_name t)) (map t_name (s_tables from)).
(** no two of the renamed tables have the same columns *)
Definition told_apart (ren : string -> string) (from : schema) : Prop :=
  forall t u, In t (s_tables from) -> In u (s_tables from) -> moved ren t = true -> moved ren u = true -> t_cols t = t_cols u -> t = u.

(** the changes for a renamed table; a unique constraint has the name of the table in its own *)
Definition renaming (suffix : string) (old nw : table) : list change :=
  ((if existsb c_uq (t_cols old) then [DropUniqueConstraint (t_name old ++ suffix) old] else []) ++
   RenameTable old nw ::
   (if existsb c_uq (t_cols old) then [CreateUniqueConstraint (t_name nw ++ suffix) nw] else []))%list.
Inductive rename_log (suffix : string) (old nw : table) : list lq_change -> Prop :=
| log_plain : existsb c_uq (t_cols old) = false -> rename_log suffix old nw [LqRenameTable (t_name nw) (t_name old)]
| log_unique : forall names, existsb c_uq (t_cols old) = true -> NoDup names ->
    (forall n, In n names <-> exists c, In c (t_cols old) /\ c_uq c = true /\ c_name c = n) ->
    rename_log suffix old nw [LqDropUniqueConstraint (t_name old) (t_name old ++ suffix); LqRenameTable (t_name nw) (t_name old);
      LqAddUniqueConstraint (t_name nw) (String.concat ", " names) (t_name nw ++ suffix)].
