(** An abstract relational database and the effect of Liquibase changes on it.

    The meaning of the change types follows the Liquibase documentation, with MySQL's rules
    for primary keys (dropping a key column removes it from the key; the columns of a dropped
    key stay NOT NULL; a key column cannot be made nullable). A change that the database would
    reject is [None]. Foreign keys, rows and indices are not part of the picture. *)
From Coq Require Import String Ascii List Bool Sorting.Permutation.
From Verif.Model Require Import GoString Octopus Liquibase.
From Verif.Spec Require Import Text LiquibaseSpec.
Import ListNotations.
Local Open Scope string_scope.

Record dbcol := mkDbCol {
  d_name : string; d_type : string; d_notnull : bool; d_autoinc : bool;
  d_default : lq_default; d_remarks : string
}.

(** a unique constraint is a name (None for one declared on the column) and its columns *)
Record dbtable := mkDbTable {
  b_name : string; b_remarks : string; b_cols : list dbcol;
  b_pk : list string; b_uqs : list (option string * list string)
}.

Definition db := list dbtable.

(** properties of the server the change log runs on *)
Record server := mkServer {
  sv_pre_holds : bool;        (* the dbms precondition holds *)
  sv_empty_tables : bool;     (* a table may lose its last column *)
  sv_rename_keeps_null : bool (* renameColumn keeps NOT NULL (Liquibase >= 4.0) *)
}.

(** ** Small helpers *)

Definition named_col (k : string) (b : dbtable) : bool := existsb (fun d => String.eqb (d_name d) k) (b_cols b).

(** "a, b, c" *)
Definition column_list (s : string) : list string := map trim_space (split_char "," s).

Definition set_cols (b : dbtable) (cols : list dbcol) : dbtable :=
  mkDbTable (b_name b) (b_remarks b) cols (b_pk b) (b_uqs b).
Definition set_pk (b : dbtable) (pk : list string) : dbtable :=
  mkDbTable (b_name b) (b_remarks b) (b_cols b) pk (b_uqs b).
Definition set_uqs (b : dbtable) (uqs : list (option string * list string)) : dbtable :=
  mkDbTable (b_name b) (b_remarks b) (b_cols b) (b_pk b) uqs.

(** [f] on the columns named [k] *)
Definition upd_col (k : string) (f : dbcol -> dbcol) (b : dbtable) : dbtable :=
  set_cols b (map (fun d => if String.eqb (d_name d) k then f d else d) (b_cols b)).

Definition on_col (k : string) (f : dbcol -> dbcol) (b : dbtable) : option dbtable :=
  if named_col k b then Some (upd_col k f b) else None.

Definition str_mem (k : string) (l : list string) : bool := existsb (String.eqb k) l.

Definition rename_in (old new : string) (l : list string) : list string :=
  map (fun x => if String.eqb x old then new else x) l.

Definition new_dbcol (lc : lq_column) : dbcol :=
  mkDbCol (lc_name lc) (lc_type lc)
    (match lc_constraints lc with
     | Some k => match k_nullable k, k_pk k with Some false, _ | _, Some true => true | _, _ => false end
     | None => false
     end)
    (match lc_autoinc lc with Some true => true | _ => false end)
    (lc_default lc) (lc_remarks lc).

Definition declares (g : lq_constraints -> option bool) (lc : lq_column) : bool :=
  match lc_constraints lc with
  | Some k => match g k with Some true => true | _ => false end
  | None => false
  end.

Fixpoint insert_after (after : string) (x : dbcol) (l : list dbcol) : list dbcol :=
  match l with
  | [] => []
  | d :: l' => if String.eqb (d_name d) after then d :: x :: l' else d :: insert_after after x l'
  end.

(** one column of addColumn: at the end, or right after [lc_after]. Constraints that addColumn
    could declare (the tool never does) are not supported. *)
Definition add_col (b : dbtable) (lc : lq_column) : option dbtable :=
  if named_col (lc_name lc) b then None
  else if declares k_pk lc || declares k_unique lc then None
  else if String.eqb (lc_after lc) "" then Some (set_cols b (b_cols b ++ [new_dbcol lc])%list)
  else if named_col (lc_after lc) b then Some (set_cols b (insert_after (lc_after lc) (new_dbcol lc) (b_cols b)))
  else None.

Fixpoint fold_opt {A B} (f : B -> A -> option B) (l : list A) (b : B) : option B :=
  match l with
  | [] => Some b
  | x :: l' => match f b x with Some b' => fold_opt f l' b' | None => None end
  end.

Definition with_notnull (v : bool) (d : dbcol) : dbcol :=
  mkDbCol (d_name d) (d_type d) v (d_autoinc d) (d_default d) (d_remarks d).

(** ** One change inside a table *)
Definition table_step (sv : server) (b : dbtable) (ch : lq_change) : option dbtable :=
  match ch with
  | LqCreateTable _ _ _ | LqDropTable _ | LqRenameTable _ _ => None
  | LqSetTableRemarks _ r => Some (mkDbTable (b_name b) r (b_cols b) (b_pk b) (b_uqs b))
  | LqAddColumn _ cols => fold_opt add_col cols b
  | LqDropColumn _ k =>
      if negb (named_col k b) then None
      else if existsb (fun u => str_mem k (snd u)) (b_uqs b) then None
      else
        let cols := filter (fun d => negb (String.eqb (d_name d) k)) (b_cols b) in
        if negb (sv_empty_tables sv) && Nat.eqb (length cols) 0 then None
        else Some (mkDbTable (b_name b) (b_remarks b) cols
                     (filter (fun x => negb (String.eqb x k)) (b_pk b)) (b_uqs b))
  | LqSetColumnRemarks _ k r =>
      on_col k (fun d => mkDbCol (d_name d) (d_type d) (d_notnull d) (d_autoinc d) (d_default d) r) b
  | LqModifyDataType _ k ty =>
      on_col k (fun d => mkDbCol (d_name d) ty (d_notnull d) (d_autoinc d) (d_default d) (d_remarks d)) b
  | LqRenameColumn _ nw old _ =>
      if named_col nw b then None
      else
        let keep := sv_rename_keeps_null sv || str_mem old (b_pk b) in
        match on_col old (fun d => mkDbCol nw (d_type d) (d_notnull d && keep) (d_autoinc d) (d_default d) (d_remarks d)) b with
        | None => None
        | Some b' => Some (mkDbTable (b_name b') (b_remarks b') (b_cols b') (rename_in old nw (b_pk b'))
                             (map (fun u => (fst u, rename_in old nw (snd u))) (b_uqs b')))
        end
  | LqAddNotNullConstraint _ k _ _ => on_col k (with_notnull true) b
  | LqDropNotNullConstraint _ k _ => if str_mem k (b_pk b) then None else on_col k (with_notnull false) b
  | LqAddAutoIncrement _ k _ =>
      on_col k (fun d => mkDbCol (d_name d) (d_type d) (d_notnull d) true (d_default d) (d_remarks d)) b
  | LqAddDefaultValue _ k _ dv =>
      on_col k (fun d => mkDbCol (d_name d) (d_type d) (d_notnull d) (d_autoinc d) dv (d_remarks d)) b
  | LqDropDefaultValue _ k _ =>
      on_col k (fun d => mkDbCol (d_name d) (d_type d) (d_notnull d) (d_autoinc d) no_default (d_remarks d)) b
  | LqAddPrimaryKey _ cols =>
      let ks := column_list cols in
      match b_pk b with
      | [] => if forallb (fun k => named_col k b) ks
              then Some (set_pk (set_cols b (map (fun d => if str_mem (d_name d) ks then with_notnull true d else d) (b_cols b))) ks)
              else None
      | _ => None
      end
  | LqDropPrimaryKey _ => match b_pk b with [] => None | _ => Some (set_pk b []) end
  | LqAddUniqueConstraint _ cols name =>
      let ks := column_list cols in
      if existsb (fun u => match fst u with Some n => String.eqb n name | None => false end) (b_uqs b) then None
      else if forallb (fun k => named_col k b) ks then Some (set_uqs b ((Some name, ks) :: b_uqs b)) else None
  | LqDropUniqueConstraint _ name =>
      if existsb (fun u => match fst u with Some n => String.eqb n name | None => false end) (b_uqs b)
      then Some (set_uqs b (filter (fun u => match fst u with Some n => negb (String.eqb n name) | None => true end) (b_uqs b)))
      else None
  end.

(** the table a change inside a table is about *)
Definition target (ch : lq_change) : string :=
  match ch with
  | LqCreateTable t _ _ | LqDropTable t | LqRenameTable _ t | LqSetTableRemarks t _ | LqAddColumn t _
  | LqDropColumn t _ | LqSetColumnRemarks t _ _ | LqModifyDataType t _ _ | LqRenameColumn t _ _ _
  | LqAddNotNullConstraint t _ _ _ | LqDropNotNullConstraint t _ _ | LqAddAutoIncrement t _ _
  | LqAddDefaultValue t _ _ _ | LqDropDefaultValue t _ _ | LqAddPrimaryKey t _ | LqDropPrimaryKey t
  | LqAddUniqueConstraint t _ _ | LqDropUniqueConstraint t _ => t
  end.

Definition find_table (n : string) (s : db) : option dbtable := find (fun b => String.eqb (b_name b) n) s.
Definition put_table (n : string) (b' : dbtable) (s : db) : db :=
  map (fun b => if String.eqb (b_name b) n then b' else b) s.

Definition distinctb (l : list string) : bool :=
  (fix go l := match l with [] => true | x :: l' => negb (str_mem x l') && go l' end) l.

(** ** One change *)
Definition apply_change (sv : server) (s : db) (ch : lq_change) : option db :=
  match ch with
  | LqCreateTable n r cols =>
      match find_table n s with
      | Some _ => None
      | None =>
          if distinctb (map lc_name cols)
          then Some (s ++ [mkDbTable n r (map new_dbcol cols)
                             (map lc_name (filter (declares k_pk) cols))
                             (map (fun lc => (None, [lc_name lc])) (filter (declares k_unique) cols))])%list
          else None
      end
  | LqDropTable n =>
      match find_table n s with
      | Some _ => Some (filter (fun b => negb (String.eqb (b_name b) n)) s)
      | None => None
      end
  | LqRenameTable nw old =>
      match find_table nw s, find_table old s with
      | None, Some b => Some (put_table old (mkDbTable nw (b_remarks b) (b_cols b) (b_pk b) (b_uqs b)) s)
      | _, _ => None
      end
  | _ =>
      match find_table (target ch) s with
      | Some b => match table_step sv b ch with
                  | Some b' => Some (put_table (target ch) b' s)
                  | None => None
                  end
      | None => None
      end
  end.

(** ** A change log: a change set whose precondition does not hold is skipped *)
Definition run_change_set (sv : server) (s : db) (cs : lq_cset) : option db :=
  if lq_pre cs && negb (sv_pre_holds sv) then Some s else fold_opt (apply_change sv) (lq_changes cs) s.
Definition run_log (sv : server) (css : list lq_cset) (s : db) : option db :=
  fold_opt (run_change_set sv) css s.

(** ** Which database has which schema *)

Section WithFloat.
  Variable float_ok : string -> bool.

  (** the default value a column of the schema should have in the database *)
  Definition schema_default (c : column) : option lq_default :=
    if String.eqb (c_default c) "" then Some no_default else new_lq_default float_ok c.

  Definition is_col (comments : bool) (c : column) (d : dbcol) : Prop :=
    d_name d = c_name c /\ d_type d = get_liquibase_type c /\ d_notnull d = c_notnull c /\
    d_autoinc d = c_autoinc c /\ schema_default c = Some (d_default d) /\
    (comments = true -> d_remarks d = c_desc c).

  (** the columns of [b] are those of the schema, in some order *)
  Definition has_cols (comments : bool) (cs : list column) (b : dbtable) : Prop :=
    exists ds, Permutation (b_cols b) ds /\ Forall2 (is_col comments) cs ds.

  Definition same_set (l : list string) (P : string -> Prop) : Prop := forall k, In k l <-> P k.

  Definition pk_of (t : table) (k : string) : Prop := exists c, In c (t_cols t) /\ c_pk c = true /\ c_name c = k.
  Definition uq_of (t : table) (k : string) : Prop := exists c, In c (t_cols t) /\ c_uq c = true /\ c_name c = k.

  (** the only unique constraint is the one the tool names, if there is a unique column *)
  Definition named_unique (suffix : string) (t : table) (b : dbtable) : Prop :=
    (b_uqs b = [] /\ ~ exists k, uq_of t k) \/
    (exists ks, b_uqs b = [(Some (t_name t ++ suffix), ks)] /\ same_set ks (uq_of t) /\ exists k, uq_of t k).

  (** every unique constraint is over exactly the unique columns; there is one if there is
      a unique column *)
  Definition some_unique (t : table) (b : dbtable) : Prop :=
    (forall u, In u (b_uqs b) -> same_set (snd u) (uq_of t)) /\
    ((exists k, uq_of t k) <-> b_uqs b <> []).

  (** the state the tool expects to find *)
  Definition has_table (comments : bool) (suffix : string) (t : table) (b : dbtable) : Prop :=
    b_name b = t_name t /\ (comments = true -> b_remarks b = t_desc t) /\
    has_cols comments (t_cols t) b /\ same_set (b_pk b) (pk_of t) /\ named_unique suffix t b.

  (** the state that is right for the schema *)
  Definition good_table (comments : bool) (t : table) (b : dbtable) : Prop :=
    b_name b = t_name t /\ (comments = true -> b_remarks b = t_desc t) /\
    has_cols comments (t_cols t) b /\ same_set (b_pk b) (pk_of t) /\ some_unique t b.

  (** the same, with the columns in the order of the schema *)
  Definition fresh_table (comments : bool) (t : table) (b : dbtable) : Prop :=
    good_table comments t b /\ Forall2 (is_col comments) (t_cols t) (b_cols b).

  (** the database consists of the tables, in some order *)
  Definition is_database (R : table -> dbtable -> Prop) (ts : list table) (s : db) : Prop :=
    exists bs, Permutation s bs /\ Forall2 R ts bs.
End WithFloat.

(** the tables a filter keeps *)
Definition select (f : option (table -> bool)) (ts : list table) : list table :=
  match f with Some g => filter g ts | None => ts end.

(** names that survive being joined with ", " *)
Definition plain_name (k : string) : Prop := ~ char_in "," k /\ trim_space k = k.

(** distinct column names; key columns are not null; plain names *)
Definition well_formed (t : table) : Prop :=
  NoDup (map c_name (t_cols t)) /\
  forall c, In c (t_cols t) -> plain_name (c_name c) /\ (c_pk c = true -> c_notnull c = true).

(** exactly one unique column: its constraint is made without a name together with the table *)
Definition lone_unique (t : table) : Prop := exists k, uq_of t k /\ forall k', uq_of t k' -> k' = k.

(** The cases the Liquibase diff gets right for a table in both schemas, with [log] the
    changes it produced. *)
Record migratable (float_ok : string -> bool) (sv : server) (log : list lq_change) (old t : table) : Prop := {
  (* a unique constraint is only added or changed if there was one *)
  m_unique : (forall k, uq_of t k <-> uq_of old k) \/ (exists k, uq_of old k);
  (* auto-increment is not removed *)
  m_autoinc : forall c o, In c (t_cols t) -> In o (t_cols old) -> c_name c = c_name o ->
    c_autoinc o = true -> c_autoinc c = true;
  (* a default that is written the same means the same *)
  m_default : forall c o, In c (t_cols t) -> In o (t_cols old) -> c_name c = c_name o ->
    c_default c = c_default o -> schema_default float_ok c = schema_default float_ok o;
  (* a column of the old key does not become nullable *)
  m_null : forall c o, In c (t_cols t) -> In o (t_cols old) -> c_name c = c_name o ->
    c_pk o = true -> c_notnull c = true;
  (* if the key changes, some column of the old one is not dropped *)
  m_key : (forall k, pk_of t k <-> pk_of old k) \/ (~ exists k, pk_of old k) \/
    (exists k, pk_of old k /\ ~ In (LqDropColumn (t_name t) k) log);
  (* not every column is dropped, unless the server accepts that *)
  m_some : sv_empty_tables sv = true \/
    (exists c, In c (t_cols old) /\ ~ In (LqDropColumn (t_name t) (c_name c)) log) \/ t_cols old = []
}.
