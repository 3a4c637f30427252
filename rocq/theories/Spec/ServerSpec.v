(** A MySQL server that runs scripts, and the database a schema describes. Nothing here looks at
    the tool's code.

    The server knows columns, the primary key and the other keys. It refuses what MySQL refuses
    of that (errors 1050, 1054, 1060, 1061, 1068, 1072, 1075, 1091, 1113, 1146); which types
    may be keys or have which default is not part of it. Names are compared as they are. *)
From Coq Require Import String Ascii List NArith ZArith Bool Sorting.Permutation.
From Verif.Model Require Import GoString Octopus Mysql.
From Verif.Spec Require Import DiffSpec MysqlGrammar MysqlSpec FlywaySpec.
Import ListNotations.
Local Open Scope string_scope.

Record sql_column := mkSqlColumn {
  q_name : string; q_type : field_type; q_notnull : bool; q_autoinc : bool;
  q_default : option my_expr; q_onupdate : option my_expr; q_comment : string
}.
(** [q_keys]: the keys other than the primary key *)
Record sql_table := mkSqlTable {
  q_table : string; q_cols : list sql_column; q_pk : list string; q_keys : list my_constraint
}.
Definition sql_server := list sql_table.

(** ** Columns *)
Definition with_option (q : sql_column) (o : col_option) : sql_column :=
  let 'mkSqlColumn n ty nn ai d u cm := q in
  match o with
  | ONotNull => mkSqlColumn n ty true ai d u cm
  | ONull => mkSqlColumn n ty false ai d u cm
  | OAutoIncrement => mkSqlColumn n ty nn true d u cm
  | ODefault e => mkSqlColumn n ty nn ai (Some e) u cm
  | OOnUpdate e => mkSqlColumn n ty nn ai d (Some e) cm
  | OComment v => mkSqlColumn n ty nn ai d u v
  | OPrimaryKey | OUniqKey | OOther => q
  end.
Definition column_of (cd : col_def) : sql_column :=
  fold_left with_option (cd_options cd) (mkSqlColumn (cd_name cd) (cd_type cd) false false None None "").

(** the keys a column definition declares *)
Definition keys_of (cd : col_def) : list my_constraint :=
  flat_map (fun o => match o with
                     | OPrimaryKey => [KPrimaryKey [cd_name cd]]
                     | OUniqKey => [KUniq (cd_name cd) [cd_name cd]]
                     | _ => []
                     end) (cd_options cd).
Definition primary_of (ks : list my_constraint) : list (list string) :=
  flat_map (fun k => match k with KPrimaryKey l => [l] | _ => [] end) ks.
Definition others_of (ks : list my_constraint) : list my_constraint :=
  filter (fun k => match k with KPrimaryKey _ => false | _ => true end) ks.

Definition key_columns_of (k : my_constraint) : list string :=
  match k with KPrimaryKey l | KIndex _ l | KUniq _ l => l | KExpr | KOther => [] end.
Definition key_name_of (k : my_constraint) : list string :=
  match k with KIndex n _ | KUniq n _ => [n] | _ => [] end.

(** primary key columns are never null *)
Definition not_null_in (ks : list string) (q : sql_column) : sql_column :=
  mkSqlColumn (q_name q) (q_type q) (q_notnull q || str_in (q_name q) ks) (q_autoinc q) (q_default q)
              (q_onupdate q) (q_comment q).

(** ** Tables *)
Fixpoint distinctb (l : list string) : bool :=
  match l with [] => true | x :: r => negb (str_in x r) && distinctb r end.
Definition leads (k : string) (l : list string) : bool :=
  match l with x :: _ => String.eqb x k | [] => false end.

(** there are columns, with distinct names; keys have distinct names and consist of columns; at
    most one column counts up by itself, and a key starts with it *)
Definition table_ok (b : sql_table) : bool :=
  let names := map q_name (q_cols b) in
  let keys := q_pk b :: map key_columns_of (q_keys b) in
  negb (Nat.eqb (length names) 0) && distinctb names &&
  forallb (fun n => str_in n names) (concat keys) &&
  distinctb (flat_map key_name_of (q_keys b)) &&
  Nat.leb (length (filter q_autoinc (q_cols b))) 1 &&
  forallb (fun q => negb (q_autoinc q) || existsb (leads (q_name q)) keys) (q_cols b).

Definition checked (b : sql_table) : option sql_table := if table_ok b then Some b else None.

(** add keys to a table; there can be only one primary key *)
Definition add_keys (ks : list my_constraint) (b : sql_table) : option sql_table :=
  let others := (q_keys b ++ others_of ks)%list in
  match primary_of ks with
  | [] => checked (mkSqlTable (q_table b) (map (not_null_in (q_pk b)) (q_cols b)) (q_pk b) others)
  | [pk] =>
      match q_pk b with
      | [] => checked (mkSqlTable (q_table b) (map (not_null_in pk) (q_cols b)) pk others)
      | _ => None
      end
  | _ => None
  end.

Definition new_table (n : string) (cds : list col_def) (ks : list my_constraint) : option sql_table :=
  add_keys (flat_map keys_of cds ++ ks) (mkSqlTable n (map column_of cds) [] []).

Definition find_sql (n : string) (s : sql_server) : option sql_table := find (fun b => String.eqb (q_table b) n) s.
Definition put_sql (n : string) (b' : sql_table) (s : sql_server) : sql_server :=
  map (fun b => if String.eqb (q_table b) n then b' else b) s.

Definition alter (n : string) (f : sql_table -> option sql_table) (s : sql_server) : option sql_server :=
  match find_sql n s with
  | Some b => option_map (fun b' => put_sql n b' s) (f b)
  | None => None
  end.

(** ** Statements. [None] is an error, which stops the script. *)
Definition run_stmt (s : sql_server) (m : mig_stmt) : option sql_server :=
  match m with
  | MCreate (SCreateTable n cds ks) =>
      (* CREATE TABLE IF NOT EXISTS *)
      match find_sql n s with
      | Some _ => Some s
      | None => option_map (fun b => s ++ [b])%list (new_table n cds ks)
      end
  | MCreate SOther => Some s
  | MDropTable n =>
      match find_sql n s with
      | Some _ => Some (filter (fun b => negb (String.eqb (q_table b) n)) s)
      | None => None
      end
  | MRename o n =>
      match find_sql n s with
      | Some _ => None
      | None => alter o (fun b => Some (mkSqlTable n (q_cols b) (q_pk b) (q_keys b))) s
      end
  | MAddColumn t cd =>
      alter t (fun b => add_keys (keys_of cd)
        (mkSqlTable (q_table b) (q_cols b ++ [column_of cd])%list (q_pk b) (q_keys b))) s
  | MModify t cd =>
      alter t (fun b =>
        if str_in (cd_name cd) (map q_name (q_cols b)) then
          add_keys (keys_of cd)
            (mkSqlTable (q_table b)
               (map (fun q => if String.eqb (q_name q) (cd_name cd) then column_of cd else q) (q_cols b))
               (q_pk b) (q_keys b))
        else None) s
  | MDropPrimaryKey t =>
      alter t (fun b => match q_pk b with
                        | [] => None
                        | _ => checked (mkSqlTable (q_table b) (q_cols b) [] (q_keys b))
                        end) s
  | MAddPrimaryKey t ks => alter t (add_keys [KPrimaryKey ks]) s
  end.

Fixpoint run_stmts (s : sql_server) (ms : list mig_stmt) : option sql_server :=
  match ms with
  | [] => Some s
  | m :: ms' => match run_stmt s m with Some s' => run_stmts s' ms' | None => None end
  end.

(** ** The database a schema describes *)
Definition described_column (c : column) (q : sql_column) : Prop :=
  exists cd, column_means c cd /\
    q = mkSqlColumn (c_name c) (cd_type cd) (c_notnull c || c_pk c) (c_autoinc c) (q_default (column_of cd))
                    (q_onupdate (column_of cd)) (c_desc c).

(** the order of the columns in the primary key is left open *)
Definition described_table (suffix : string) (t : table) (b : sql_table) : Prop :=
  q_table b = t_name t /\ Forall2 described_column (t_cols t) (q_cols b) /\
  (forall k, In k (q_pk b) <-> pk_column t k) /\
  q_keys b = (key_if (map c_name (filter c_uq (t_cols t))) (KUniq (t_name t ++ suffix)) ++
              map (fun i => KIndex (ix_name i) (ix_cols i)) (t_indices t))%list /\
  table_ok b = true.

Definition described (suffix : string) (ts : list table) (s : sql_server) : Prop :=
  exists bs, Permutation s bs /\ Forall2 (described_table suffix) ts bs.

(** the tables the filter selects *)
Definition selection (f : option (table -> bool)) (ts : list table) : list table :=
  match f with None => ts | Some g => filter g ts end.

(** ** Tables the server accepts *)

(** the columns of the unique key and of the indices *)
Definition other_keys (t : table) : list (list string) :=
  map c_name (filter c_uq (t_cols t)) :: map ix_cols (t_indices t).
Definition starts_key (k : string) (keys : list (list string)) : Prop := exists r, In (k :: r) keys.

Record acceptable (suffix : string) (t : table) : Prop := {
  ac_columns : t_cols t <> [] /\ NoDup (map c_name (t_cols t));
  ac_indices : forall i k, In i (t_indices t) -> In k (ix_cols i) -> In k (map c_name (t_cols t));
  ac_names : NoDup (map ix_name (t_indices t)) /\
             ((exists k, uq_column t k) -> ~ In (t_name t ++ suffix) (map ix_name (t_indices t)));
  ac_autoinc : forall c c', In c (t_cols t) -> In c' (t_cols t) -> c_autoinc c = true -> c_autoinc c' = true -> c = c';
  ac_key : forall c, In c (t_cols t) -> c_autoinc c = true ->
           starts_key (c_name c) (map c_name (filter c_pk (t_cols t)) :: other_keys t)
}.

(** ** Tables whose changes a Flyway script can express *)

(** only NOT NULL and auto-increment may change, and
    - NOT NULL only if the column has nothing else that MODIFY must repeat, or becomes auto-increment;
    - auto-increment only from off to on;
    - a column that leaves the primary key stays NOT NULL. *)
Record alterable_column (o c : column) : Prop := {
  al_same : c_name c = c_name o /\ sql_type c = sql_type o /\ c_type c = c_type o /\ c_default c = c_default o /\
            c_onupdate c = c_onupdate o /\ c_desc c = c_desc o /\ c_uq c = c_uq o;
  al_null : c_notnull c <> c_notnull o ->
            (c_autoinc c = true /\ c_autoinc o = false) \/
            (c_autoinc c = false /\ c_default c = "" /\ c_onupdate c = "" /\ c_desc c = "");
  al_auto : c_autoinc o = true -> c_autoinc c = true;
  al_key : c_pk o = true -> c_pk c = false -> c_notnull c = true
}.

Definition same_key (old t : table) : Prop := forall k, pk_column old k <-> pk_column t k.

Record alterable (old t : table) : Prop := {
  at_columns : Forall2 alterable_column (t_cols old) (t_cols t);
  at_indices : t_indices t = t_indices old;
  at_key : same_key old t \/ exists k, pk_column old k;
  (** an auto-increment column has a key at all times *)
  at_auto : forall o c, In o (t_cols old) -> In c (t_cols t) -> c_name o = c_name c -> c_autoinc c = true ->
            starts_key (c_name c) (other_keys t) \/
            (same_key old t /\ (c_autoinc o = true \/ forall k, pk_column t k <-> k = c_name c))
}.

(** ** Scripts *)

(** schemas whose names and texts need no quoting and whose tables the server accepts *)
Definition proper (reserved : string -> bool) (suffix : string) (ts : list table) : Prop :=
  Forall (plain_table reserved suffix) ts /\ NoDup (map t_name ts) /\ Forall (acceptable suffix) ts.

(** run on an empty server, the script makes the database of [ts] *)
Definition creates (reserved : string -> bool) (suffix script : string) (ts : list table) : Prop :=
  exists stmts s, read_sql reserved script = Some stmts /\ run_stmts [] (map MCreate stmts) = Some s /\ described suffix ts s.

(** run on any database of [old], the script makes a database of [new] *)
Definition migrates (reserved : string -> bool) (suffix script : string) (old new : list table) : Prop :=
  forall s, described suffix old s ->
  exists ms s', read_script reserved script = Some ms /\ run_stmts s ms = Some s' /\ described suffix new s'.
