(** What a diff result says, independent of how it is computed *)
From Coq Require Import String List NArith Bool Sorting.Permutation.
From Verif.Model Require Import Octopus DiffCore Diff.
Import ListNotations.
Local Open Scope string_scope.

(** every iteration order Go may use for a map *)
Definition iteration_order {A} (ord : list A -> list A) : Prop :=
  forall l, Permutation (ord l) l.

(** all changes of a result, in order *)
Definition all_changes (css : list cset) : list change := flat_map cs_changes css.

(** a table is selected when there is no filter or the filter accepts it *)
Definition selected (f : option (table -> bool)) (t : table) : Prop :=
  match f with None => True | Some g => g t = true end.

(** names of tables a change says no longer exist *)
Definition gone (ch : change) : list string :=
  match ch with
  | DropTable t => [t_name t]
  | RenameTable old _ => [t_name old]
  | _ => []
  end.

(** tables a change says are new *)
Definition appeared (ch : change) : list table :=
  match ch with
  | CreateTable t => [t]
  | RenameTable _ nw => [nw]
  | _ => []
  end.

(** names of columns of table [n] a change says no longer exist *)
Definition gone_columns (n : string) (ch : change) : list string :=
  match ch with
  | DropColumn t k => if String.eqb (t_name t) n then [k] else []
  | RenameColumn t o _ => if String.eqb (t_name t) n then [c_name o] else []
  | _ => []
  end.

(** [ch] changes an attribute of column [k] of table [n] *)
Definition attribute_change (n k : string) (ch : change) : bool :=
  match ch with
  | ChangeColumnType t _ c | SetColumnComment t c | SetNotNullConstraint t c
  | SetAutoIncrement t c | SetDefaultValue t c => String.eqb (t_name t) n && String.eqb (c_name c) k
  | _ => false
  end.

(** [ch] changes the comment, primary key or unique constraint of table [n],
    which exists in both schemas (RenameTable also touches constraints, but then
    [n] exists in one schema only) *)
Definition table_change (n : string) (ch : change) : bool :=
  match ch with
  | SetTableComment t => String.eqb (t_name t) n
  | UpdatePrimaryKey t _ => String.eqb (t_name t) n
  | DropUniqueConstraint _ t | CreateUniqueConstraint _ t => String.eqb (t_name t) n
  | _ => false
  end.

(** two columns agree in everything but name, values and reference; the comment
    counts only when comments are enabled *)
Definition same_attributes (comments : bool) (a b : column) : Prop :=
  c_type a = c_type b /\ c_size a = c_size b /\ c_scale a = c_scale b /\
  c_notnull a = c_notnull b /\ c_pk a = c_pk b /\ c_uq a = c_uq b /\ c_autoinc a = c_autoinc b /\
  c_default a = c_default b /\ c_onupdate a = c_onupdate b /\
  (comments = true -> c_desc a = c_desc b).

(** distinct table names, and distinct column names within each table *)
Definition distinct_names (s : schema) : Prop :=
  NoDup (map t_name (s_tables s)) /\ forall t, In t (s_tables s) -> NoDup (map c_name (t_cols t)).

(** the columns [t] marks as primary key / unique *)
Definition pk_column (t : table) (k : string) : Prop := exists c, In c (t_cols t) /\ c_pk c = true /\ c_name c = k.
Definition uq_column (t : table) (k : string) : Prop := exists c, In c (t_cols t) /\ c_uq c = true /\ c_name c = k.
