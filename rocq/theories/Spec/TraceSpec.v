(** Where the values of a column are after a migration (C118) *)
From Coq Require Import String List NArith Bool.
From Verif.Model Require Import GoString Octopus Diff Liquibase.
From Verif.Spec Require Import DiffSpec MysqlGrammar FlywaySpec.
Import ListNotations.
Local Open Scope string_scope.

(** the values of a column are at the name of its table and its own name *)
Definition place := (string * string)%type.

Definition table_renamed (old nw : string) (p : place) : place := if String.eqb (fst p) old then (nw, snd p) else p.
Definition column_renamed (t old nw : string) (p : place) : place :=
  if String.eqb (fst p) t && String.eqb (snd p) old then (t, nw) else p.
Definition table_gone (t : string) (p : place) : option place := if String.eqb (fst p) t then None else Some p.
Definition column_gone (t c : string) (p : place) : option place :=
  if String.eqb (fst p) t && String.eqb (snd p) c then None else Some p.

(** where a statement of a change log leaves them; [None]: they are lost *)
Definition log_moves (ch : lq_change) (p : place) : option place :=
  match ch with
  | LqDropTable t => table_gone t p
  | LqRenameTable nw old => Some (table_renamed old nw p)
  | LqDropColumn t c => column_gone t c p
  | LqRenameColumn t nw old _ => Some (column_renamed t old nw p)
  | _ => Some p
  end.

(** the same of a change of the other comparison *)
Definition change_moves (ch : change) (p : place) : option place :=
  match ch with
  | DropTable t => table_gone (t_name t) p
  | RenameTable old nw => Some (table_renamed (t_name old) (t_name nw) p)
  | DropColumn t c => column_gone (t_name t) c p
  | RenameColumn t old nw => Some (column_renamed (t_name t) (c_name old) (c_name nw) p)
  | _ => Some p
  end.

(** and of a statement of an SQL script *)
Definition sql_moves (st : mig_stmt) (p : place) : option place :=
  match st with
  | MDropTable t => table_gone t p
  | MRename old nw => Some (table_renamed old nw p)
  | _ => Some p
  end.

(** one after the other *)
Fixpoint trace {A} (moves : A -> place -> option place) (l : list A) (p : place) : option place :=
  match l with
  | [] => Some p
  | x :: l' => match moves x p with Some q => trace moves l' q | None => None end
  end.

(** the places that the tables of a schema have *)
Definition has (ts : list table) (p : place) : Prop :=
  exists t c, In t ts /\ In c (t_cols t) /\ p = (t_name t, c_name c).

(** the values of a column of [from] may go to another place of [to]: that of a new column that is like a missing one,
    or the same column of a new table that has the columns of a missing one *)
Inductive may_move (comments : bool) (from to : list table) : place -> place -> Prop :=
| move_column : forall old t o c, In old from -> In t to -> t_name old = t_name t ->
    In o (t_cols old) -> In c (t_cols t) -> same_attributes comments c o ->
    ~ In (c_name o) (map c_name (t_cols t)) -> ~ In (c_name c) (map c_name (t_cols old)) ->
    may_move comments from to (t_name t, c_name o) (t_name t, c_name c)
| move_table : forall old t c, In old from -> In t to -> t_cols t = t_cols old -> In c (t_cols t) ->
    ~ In (t_name old) (map t_name to) -> ~ In (t_name t) (map t_name from) ->
    may_move comments from to (t_name old, c_name c) (t_name t, c_name c).

(** [tr] brings the values of [from] to [to]: what stays is where it was, what moves goes where it may, no two columns
    get mixed up, and values are lost only if all places where they may go have got those of other columns *)
Record brings (comments : bool) (from to : list table) (tr : place -> option place) : Prop := {
  br_stays : forall p, has from p -> has to p -> tr p = Some p;
  br_goes : forall p q, has from p -> tr p = Some q -> q <> p -> may_move comments from to p q;
  br_apart : forall p p' q, has from p -> has from p' -> tr p = Some q -> tr p' = Some q -> p = p';
  br_ends : forall p q, has from p -> tr p = Some q -> has to q;
  br_lost : forall p q, has from p -> tr p = None -> may_move comments from to p q ->
    exists p', has from p' /\ tr p' = Some q
}.

(** the statements of a log that make a place *)
Definition makes (p : place) (ch : lq_change) : Prop :=
  match ch with
  | LqCreateTable t _ cols | LqAddColumn t cols => fst p = t /\ In (snd p) (map lc_name cols)
  | _ => False
  end.

(** all tables have different names, and so have the columns of each *)
Definition all_distinct (ts : list table) : Prop :=
  NoDup (map t_name ts) /\ forall t, In t ts -> NoDup (map c_name (t_cols t)).
