(** What a Markdown report should say *)
From Coq Require Import String Ascii List NArith Bool.
From Verif.Model Require Import GoString Util Octopus Diff.
Import ListNotations.
Local Open Scope string_scope.

(** the table a change is listed under *)
Definition under (n : string) (ch : change) : bool := String.eqb (t_name (dep_table ch)) n.

(** what a change is about, with its direction *)
Inductive kind :=
| KCreate | KDrop | KRename | KPk | KUniqueOn | KUniqueOff | KTableComment | KAdd | KDropCol | KComment
| KType | KRenameCol | KNotNull | KNullable | KAutoOn | KAutoOff | KNoDefault | KDefault.

Definition kind_of (ch : change) : kind :=
  match ch with
  | CreateTable _ => KCreate | DropTable _ => KDrop | RenameTable _ _ => KRename | UpdatePrimaryKey _ _ => KPk
  | CreateUniqueConstraint _ _ => KUniqueOn | DropUniqueConstraint _ _ => KUniqueOff | SetTableComment _ => KTableComment
  | AddColumn _ _ => KAdd | DropColumn _ _ => KDropCol | SetColumnComment _ _ => KComment
  | ChangeColumnType _ _ _ => KType | RenameColumn _ _ _ => KRenameCol
  | SetNotNullConstraint _ c => if c_notnull c then KNotNull else KNullable
  | SetAutoIncrement _ c => if c_autoinc c then KAutoOn else KAutoOff
  | SetDefaultValue _ c => if String.eqb (c_default c) "" then KNoDefault else KDefault
  end.

(** texts the line must show *)
Definition shows (ch : change) : list string :=
  match ch with
  | RenameTable o n => [t_name o; t_name n]
  | SetTableComment t => [t_desc t]
  | AddColumn _ c => [c_name c]
  | DropColumn _ n => [n]
  | SetColumnComment _ c => [c_name c; c_desc c]
  | ChangeColumnType _ o n => [c_name n; col_format o; col_format n]
  | RenameColumn _ o n => [c_name o; c_name n]
  | SetNotNullConstraint _ c | SetAutoIncrement _ c => [c_name c]
  | SetDefaultValue _ c => c_name c :: (if String.eqb (c_default c) "" then [] else [c_default c])
  | _ => []
  end.

(** [p] occurs in [s] *)
Definition occurs (p s : string) : Prop := exists a b, s = a ++ p ++ b.

(** the first lines of a report *)
Definition report_head (from to : string) : list string :=
  ["# DB Schema changes"; ""; "* from: `" ++ from ++ "`"; "* to: `" ++ to ++ "`"].
(** the section of table [n]: its changes in their order, one line each *)
Definition report_section (line : change -> string) (chs : list change) (n : string) : list string :=
  "" :: ("## " ++ n) :: map (fun ch => "* " ++ line ch) (filter (under n) chs).
