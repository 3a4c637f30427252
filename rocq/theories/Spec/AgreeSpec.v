(** What the change log for Liquibase says about a change that the other diff commands report *)
From Coq Require Import String List Bool.
From Verif.Model Require Import GoString Octopus Diff Liquibase.
Import ListNotations.
Local Open Scope string_scope.

(** the text lists the names of the columns of the table with this mark, each once *)
Definition lists (mark : column -> bool) (t : table) (text : string) : Prop :=
  exists l, NoDup l /\ (forall k, In k l <-> exists c, In c (t_cols t) /\ mark c = true /\ c_name c = k) /\ text = join ", " l.

Definition some_column (mark : column -> bool) (t : table) : bool := existsb mark (t_cols t).

(** the statements of the log about one change; what the texts of types and default values mean is C25 and C107 *)
Inductive tells : list lq_change -> change -> Prop :=
| tells_create : forall t cols keys, map lc_name cols = map c_name (t_cols t) ->
    Forall (fun ch => exists k n, ch = LqAddPrimaryKey (t_name t) k \/ ch = LqAddUniqueConstraint (t_name t) k n) keys ->
    tells (LqCreateTable (t_name t) (t_desc t) cols :: keys) (CreateTable t)
| tells_drop : forall t, tells [LqDropTable (t_name t)] (DropTable t)
| tells_rename : forall a b, tells [LqRenameTable (t_name b) (t_name a)] (RenameTable a b)
| tells_key : forall a b text, lists c_pk b text ->
    tells ((if some_column c_pk a then [LqDropPrimaryKey (t_name b)] else []) ++
           (if some_column c_pk b then [LqAddPrimaryKey (t_name b) text] else []))%list (UpdatePrimaryKey a b)
| tells_drop_unique : forall n t, tells [LqDropUniqueConstraint (t_name t) n] (DropUniqueConstraint n t)
| tells_unique : forall n t text, lists c_uq t text -> tells [LqAddUniqueConstraint (t_name t) text n] (CreateUniqueConstraint n t)
| tells_comment : forall t, tells [LqSetTableRemarks (t_name t) (t_desc t)] (SetTableComment t)
| tells_drop_column : forall t k, tells [LqDropColumn (t_name t) k] (DropColumn t k)
| tells_column_comment : forall t c, tells [LqSetColumnRemarks (t_name t) (c_name c) (c_desc c)] (SetColumnComment t c)
| tells_type : forall t o c ty, tells [LqModifyDataType (t_name t) (c_name c) ty] (ChangeColumnType t o c)
| tells_rename_column : forall t o c ty,
    tells (LqRenameColumn (t_name t) (c_name c) (c_name o) ty ::
           (if c_notnull o then [LqAddNotNullConstraint (t_name t) (c_name c) ty (c_default c)] else [])) (RenameColumn t o c)
| tells_not_null : forall t c ty,
    tells [if c_notnull c then LqAddNotNullConstraint (t_name t) (c_name c) ty (c_default c)
           else LqDropNotNullConstraint (t_name t) (c_name c) ty] (SetNotNullConstraint t c)
| tells_autoinc : forall t c ty, c_autoinc c = true -> tells [LqAddAutoIncrement (t_name t) (c_name c) ty] (SetAutoIncrement t c)
| tells_default : forall t c ty dv, c_default c <> "" ->
    tells [LqAddDefaultValue (t_name t) (c_name c) ty dv] (SetDefaultValue t c)
| tells_no_default : forall t c ty, c_default c = "" ->
    tells [LqDropDefaultValue (t_name t) (c_name c) ty] (SetDefaultValue t c).

(** what only one of the two says: added columns, the drop of a constraint of a table of the old schema without unique
    columns; auto-increment that is turned off *)
Definition in_both (from : schema) (ch : lq_change) : bool :=
  match ch with
  | LqAddColumn _ _ => false
  | LqDropUniqueConstraint n _ => existsb (fun t => String.eqb (t_name t) n && some_column c_uq t) (s_tables from)
  | _ => true
  end.
Definition in_log (ch : change) : bool := match ch with SetAutoIncrement _ c => c_autoinc c | _ => true end.

(** the log tells the changes one by one in their order *)
Definition tells_all (from : schema) (log : list lq_change) (chs : list change) : Prop :=
  exists parts, concat parts = filter (in_both from) log /\ Forall2 tells parts (filter in_log chs).
