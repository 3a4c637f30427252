(** What a Flyway script says, read with MySQL's syntax *)
From Coq Require Import String Ascii List NArith ZArith Bool.
From Verif.Model Require Import GoString Util Octopus Mysql Diff.
From Verif.Spec Require Import Order DiffSpec MysqlGrammar MysqlSpec.
Import ListNotations.
Local Open Scope string_scope.

Inductive mig_stmt :=
| MCreate (s : my_stmt) | MDropTable (name : string) | MRename (old nw : string)
| MAddColumn (t : string) (cd : col_def) | MModify (t : string) (cd : col_def)
| MDropPrimaryKey (t : string) | MAddPrimaryKey (t : string) (keys : list string).

(** words that ALTER TABLE makes special; all are reserved in MySQL *)
Definition alter_words : list string := ["add"; "column"; "alter"; "drop"; "rename"; "to"].
Definition alter_reserved (reserved : string -> bool) (w : string) : bool := reserved w || str_in w alter_words.

Section Reader.
  Variable reserved : string -> bool.
  Let rs := alter_reserved reserved.

  Definition skip_column (ts : list tok) : list tok :=
    match ts with TWord w :: r => if kw w "column" then r else ts | _ => ts end.

  (** what follows ALTER TABLE name *)
  Definition read_alter (t : string) (ts : list tok) : option mig_stmt :=
    match ts with
    | TWord w :: r =>
        if kw w "modify" then option_map (MModify t) (read_column rs (skip_column r))
        else if kw w "add" then
          match r with
          | TWord p :: TWord k :: r' =>
              if kw p "primary" && kw k "key" then option_map (MAddPrimaryKey t) (read_keys rs r')
              else option_map (MAddColumn t) (read_column rs (skip_column r))
          | _ => option_map (MAddColumn t) (read_column rs (skip_column r))
          end
        else if kw w "drop" then
          match r with
          | [TWord p; TWord k] => if kw p "primary" && kw k "key" then Some (MDropPrimaryKey t) else None
          | _ => None
          end
        else None
    | _ => None
    end.

  Definition read_mig (ts : list tok) : option mig_stmt :=
    match ts with
    | TWord a :: TWord b :: r =>
        if kw a "create" then option_map MCreate (read_stmt rs ts)
        else if negb (kw b "table") then None
        else if kw a "drop" then
          match r with [n] => option_map MDropTable (read_name rs n) | _ => None end
        else if kw a "rename" then
          match r with
          | [o; TWord to; n] =>
              if kw to "to" then
                match read_name rs o, read_name rs n with Some x, Some y => Some (MRename x y) | _, _ => None end
              else None
          | _ => None
          end
        else if kw a "alter" then
          match r with
          | n :: r' => match read_name rs n with Some t => read_alter t r' | None => None end
          | [] => None
          end
        else None
    | _ => None
    end.

  Fixpoint read_migs (l : list (list tok)) : option (list mig_stmt) :=
    match l with
    | [] => Some []
    | [] :: l' => read_migs l'
    | x :: l' => match read_mig x, read_migs l' with Some i, Some r => Some (i :: r) | _, _ => None end
    end.

  Definition read_script (s : string) : option (list mig_stmt) :=
    match lex_sql s with Some ts => read_migs (split_stmts ts) | None => None end.
End Reader.

(** the primary key columns of a table, sorted and without repetition *)
Definition key_columns (t : table) (ks : list string) : Prop :=
  strictly_increasing ks /\ forall k, In k ks <-> pk_column t k.

(** kinds of change the script says nothing about *)
Definition silent (ch : change) : Prop :=
  match ch with
  | CreateUniqueConstraint _ _ | DropUniqueConstraint _ _ | SetTableComment _ | DropColumn _ _ | SetColumnComment _ _
  | ChangeColumnType _ _ _ | RenameColumn _ _ _ | SetDefaultValue _ _ => True
  | _ => False
  end.

(** the statements for a change *)
Inductive sql_of (suffix : string) : change -> list mig_stmt -> Prop :=
| so_create : forall t st, table_means suffix t st -> sql_of suffix (CreateTable t) [MCreate st]
| so_drop : forall t, sql_of suffix (DropTable t) [MDropTable (t_name t)]
| so_rename : forall old nw, sql_of suffix (RenameTable old nw) [MRename (t_name old) (t_name nw)]
| so_key : forall old nw ks, key_columns nw ks -> ks <> [] ->
    sql_of suffix (UpdatePrimaryKey old nw) [MDropPrimaryKey (t_name nw); MAddPrimaryKey (t_name nw) ks]
| so_no_key : forall old nw, key_columns nw [] ->
    sql_of suffix (UpdatePrimaryKey old nw) [MDropPrimaryKey (t_name nw)]
| so_not_null : forall t c ft, sql_type c = Some ft ->
    sql_of suffix (SetNotNullConstraint t c)
      [MModify (t_name t) (mkColDef (c_name c) ft (if c_notnull c then [ONotNull] else []))]
| so_autoinc_on : forall t c cd, c_autoinc c = true -> column_means c cd ->
    sql_of suffix (SetAutoIncrement t c) [MModify (t_name t) cd]
| so_autoinc_off : forall t c ft, c_autoinc c = false -> sql_type c = Some ft ->
    sql_of suffix (SetAutoIncrement t c)
      [MModify (t_name t) (mkColDef (c_name c) ft [OAutoIncrement; OPrimaryKey])]
| so_silent : forall ch, silent ch -> sql_of suffix ch [].

(** changes whose names and texts need no quoting. AddColumn is missing: its SQL is not valid. *)
Definition plain_change (reserved : string -> bool) (suffix : string) (ch : change) : Prop :=
  let rs := alter_reserved reserved in
  match ch with
  | CreateTable t => plain_table rs suffix t
  | DropTable t => plain_ident rs (t_name t)
  | RenameTable o n => plain_ident rs (t_name o) /\ plain_ident rs (t_name n)
  | UpdatePrimaryKey _ n => plain_ident rs (t_name n) /\ Forall (fun c => plain_ident rs (c_name c)) (t_cols n)
  | SetNotNullConstraint t c | SetAutoIncrement t c => plain_ident rs (t_name t) /\ plain_column rs c
  | AddColumn _ _ => False
  | _ => True
  end.
