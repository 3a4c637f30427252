(** The databases made by the DDL and by the change log of one schema (C111) *)
From Coq Require Import String List NArith ZArith Bool.
From Verif.Model Require Import GoString Octopus Liquibase Mysql.
From Verif.Spec Require Import MysqlSpec LiquibaseSpec Database ServerSpec.
Import ListNotations.
Local Open Scope string_scope.

(** default values of which both make the same *)
Inductive same_default : lq_default -> option my_expr -> Prop :=
| sd_none : same_default no_default None
| sd_text : forall v, same_default (mkLqDefault v None None "") (Some (EValue (Some v)))
| sd_date : forall v, same_default (mkLqDefault "" None None v) (Some (EValue (Some v)))
| sd_number : forall v, same_default (mkLqDefault "" None (Some (LqFloat v)) "") (Some (EValue (Some v)))
| sd_bool : forall b, same_default (mkLqDefault "" (Some b) None "") (Some (EValue (Some (if b then "1" else "0")))).

(** types are left to C107 *)
Record same_db_column (comments : bool) (q : sql_column) (d : dbcol) : Prop := {
  sc_name : d_name d = q_name q;
  sc_null : d_notnull d = q_notnull q;
  sc_auto : d_autoinc d = q_autoinc q;
  sc_default : same_default (d_default d) (q_default q);
  sc_comment : comments = true -> d_remarks d = q_comment q
}.

Definition same_members (l l' : list string) : Prop := forall k, In k l <-> In k l'.

(** the same columns in the same order, the same primary key, the same unique keys *)
Record same_db_table (comments : bool) (q : sql_table) (d : dbtable) : Prop := {
  st_name : b_name d = q_table q;
  st_columns : Forall2 (same_db_column comments) (q_cols q) (b_cols d);
  st_primary : same_members (b_pk d) (q_pk q);
  (* every unique key of the DDL is there under its name *)
  st_unique : forall n ks, In (KUniq n ks) (q_keys q) -> exists ks', In (Some n, ks') (b_uqs d) /\ same_members ks' ks;
  (* and nothing else has to be unique *)
  st_others : forall u, In u (b_uqs d) -> exists n ks, In (KUniq n ks) (q_keys q) /\ same_members (snd u) ks
}.

(** default values that are written in the same way for both: no functions, no null, numbers as they are printed, no
    Boolean that is true *)
Definition common_default (c : column) : Prop :=
  c_default c = "" \/
  (plain_value (c_type c) (c_default c) (EValue (Some (c_default c))) /\ (c_type c = "boolean" -> c_default c = "0")).
