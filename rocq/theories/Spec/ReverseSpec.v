(** Changes and their opposites *)
From Coq Require Import String List Bool Sorted.
From Verif.Model Require Import Octopus DiffCore Diff.
From Verif.Spec Require Import Order DiffSpec.
Import ListNotations.
Local Open Scope string_scope.

(** what takes back the change; the tables of a change of one table or column are its two versions *)
Inductive opposite : change -> change -> Prop :=
| opp_create : forall t, opposite (CreateTable t) (DropTable t)
| opp_drop : forall t, opposite (DropTable t) (CreateTable t)
| opp_rename : forall a b, opposite (RenameTable a b) (RenameTable b a)
| opp_key : forall a b, opposite (UpdatePrimaryKey a b) (UpdatePrimaryKey b a)
| opp_unique_made : forall n t, opposite (CreateUniqueConstraint n t) (DropUniqueConstraint n t)
| opp_unique_dropped : forall n t, opposite (DropUniqueConstraint n t) (CreateUniqueConstraint n t)
| opp_add : forall t u c, t_name t = t_name u -> opposite (AddColumn t c) (DropColumn u (c_name c))
| opp_drop_column : forall t u c, t_name t = t_name u -> opposite (DropColumn t (c_name c)) (AddColumn u c)
| opp_rename_column : forall t u c d, t_name t = t_name u -> opposite (RenameColumn t c d) (RenameColumn u d c)
| opp_type : forall t u c d, t_name t = t_name u -> opposite (ChangeColumnType t c d) (ChangeColumnType u d c)
| opp_table_comment : forall t u, t_name t = t_name u -> t_desc t <> t_desc u ->
    opposite (SetTableComment t) (SetTableComment u)
| opp_comment : forall t u c d, t_name t = t_name u -> c_name c = c_name d -> c_desc c <> c_desc d ->
    opposite (SetColumnComment t c) (SetColumnComment u d)
| opp_not_null : forall t u c d, t_name t = t_name u -> c_name c = c_name d -> c_notnull c = negb (c_notnull d) ->
    opposite (SetNotNullConstraint t c) (SetNotNullConstraint u d)
| opp_autoinc : forall t u c d, t_name t = t_name u -> c_name c = c_name d -> c_autoinc c = negb (c_autoinc d) ->
    opposite (SetAutoIncrement t c) (SetAutoIncrement u d)
| opp_default : forall t u c d, t_name t = t_name u -> c_name c = c_name d -> c_default c <> c_default d ->
    opposite (SetDefaultValue t c) (SetDefaultValue u d).

(** of the items whose names are not among [old], those that are alike are listed in the order of their names *)
Definition new_in_order {A} (name : A -> string) (alike : A -> A -> Prop) (old : list string) (l : list A) : Prop :=
  ForallOrdPairs (fun x y => ~ In (name x) old -> ~ In (name y) old -> alike x y -> bytes_lt (name x) (name y)) l.

(** the tables with the same columns that [to] adds are listed by name, and so are the columns with the same attributes
    that it adds to a table *)
Definition orderly (comments : bool) (from to : schema) : Prop :=
  new_in_order t_name (fun a b => t_cols a = t_cols b) (map t_name (s_tables from)) (s_tables to) /\
  forall old t, In old (s_tables from) -> In t (s_tables to) -> t_name old = t_name t ->
    new_in_order c_name (same_attributes comments) (map c_name (t_cols old)) (t_cols t).

(** in the order in which a loaded schema is: by group, then by name *)
Definition by_group (s : schema) : Prop := Sorted (fun a b => table_less b a = false) (s_tables s).

(** the comparison in one direction reports a change whose opposite is not reported in the other *)
Definition one_way (o : diff_option) (from to : schema) (ch : change) : Prop :=
  distinct_names from /\ distinct_names to /\ by_group from /\ by_group to /\
  exists css css', get_diff (fun l => l) (fun _ l => l) o from to = Some css /\
    get_diff (fun l => l) (fun _ l => l) o to from = Some css' /\
    In ch (all_changes css) /\ forall ch', In ch' (all_changes css') -> ~ opposite ch ch'.
