(** What importing parsed MySQL statements should give, and what is lost by exporting a type *)
From Coq Require Import String Ascii List NArith ZArith Bool.
From Verif.Model Require Import GoString Octopus Mysql.
From Verif.Spec Require Import MysqlGrammar MysqlSpec.
Import ListNotations.
Local Open Scope string_scope.

(** options that say something about NULL: PRIMARY KEY, NOT NULL and AUTO_INCREMENT forbid it *)
Definition null_like (o : col_option) : Prop :=
  o = OPrimaryKey \/ o = ONotNull \/ o = OAutoIncrement \/ o = ONull.

(** [o] is the last element of [l] with [P] *)
Definition last_such {A} (P : A -> Prop) (l : list A) (o : A) : Prop :=
  exists pre post, l = (pre ++ o :: post)%list /\ P o /\ forall x, In x post -> ~ P x.

Definition in_primary_key (ks : list my_constraint) (n : string) : Prop :=
  exists keys, In (KPrimaryKey keys) ks /\ In n keys.
Definition in_unique_key (ks : list my_constraint) (n : string) : Prop :=
  exists k keys, In (KUniq k keys) ks /\ In n keys.

Definition sets_default (o : col_option) : Prop := exists e, o = ODefault e /\ e <> EOther.
Definition sets_update (o : col_option) : Prop := exists e, o = OOnUpdate e /\ e <> EOther.
Definition sets_comment (o : col_option) : Prop := exists v, o = OComment v.

(** the text stored for an expression *)
Definition stored (e : my_expr) : string :=
  match e with EValue (Some v) => v | EValue None => "" | EFunc f => "fn::" ++ f | EOther => "" end.

Record imported_column (ks : list my_constraint) (cd : col_def) (c : column) : Prop := {
  im_name : c_name c = cd_name cd;
  im_type : (c_type c, c_size c, c_scale c) = import_column_type (cd_type cd);
  im_pk : c_pk c = true <-> In OPrimaryKey (cd_options cd) \/ in_primary_key ks (cd_name cd);
  im_uq : c_uq c = true <-> in_unique_key ks (cd_name cd);
  im_notnull : c_notnull c = true <-> exists o, last_such null_like (cd_options cd) o /\ o <> ONull;
  im_autoinc : c_autoinc c = true <-> In OAutoIncrement (cd_options cd);
  im_default : (forall e, last_such sets_default (cd_options cd) (ODefault e) -> c_default c = stored e) /\
               ((forall o, In o (cd_options cd) -> ~ sets_default o) -> c_default c = "");
  im_update : (forall e, last_such sets_update (cd_options cd) (OOnUpdate e) -> c_onupdate c = stored e) /\
              ((forall o, In o (cd_options cd) -> ~ sets_update o) -> c_onupdate c = "");
  im_desc : (forall v, last_such sets_comment (cd_options cd) (OComment v) -> c_desc c = v) /\
            ((forall o, In o (cd_options cd) -> ~ sets_comment o) -> c_desc c = "");
  im_values : c_values c = if str_in (c_type c) ["enum"; "set"] then ft_elems (cd_type cd) else [];
  im_ref : c_ref c = None
}.

Definition indices_of (ks : list my_constraint) : list index :=
  flat_map (fun k => match k with KIndex n cols => [mkIdx n cols] | _ => [] end) ks.

Inductive imported_table : my_stmt -> table -> Prop :=
| im_table : forall name cds ks t,
    t_name t = name -> Forall2 (imported_column ks) cds (t_cols t) -> t_indices t = indices_of ks ->
    t_desc t = "" -> t_group t = "" -> t_class t = "" ->
    imported_table (SCreateTable name cds ks) t.

(** the statements that give a table *)
Definition wanted (excludes : list string) (s : my_stmt) : bool :=
  match s with SCreateTable name _ _ => negb (str_in name excludes) | SOther => false end.

(** type, size, scale and values after writing the type of a column and importing it *)
Definition reimported_type (c : column) : option (string * N * N * list string) :=
  match read_type_text (to_mysql_column_type c) with
  | Some ft => let '(ty, n, s) := import_column_type ft in Some (ty, n, s, import_column_values ty ft)
  | None => None
  end.
