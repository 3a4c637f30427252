(** The forms that documents must have: the struct declarations of /repo, and the values that fit them *)
From Coq Require Import String Ascii List NArith Bool.
From Verif.Model Require Import GoString Json Cli.
From Verif.Spec Require Import Text JsonGrammar.
Import ListNotations.
Local Open Scope string_scope.

(** the types of fields: string, bool, uint16, interface{}, slices, and pointers to structs *)
Inductive kind := Text | Flag | Small | Anything | ListOf (k : kind) | Pointer (struct : string).

(** a number below 65536, without sign, fraction and exponent *)
Definition small (lit : string) : Prop :=
  exists zeros n, all_chars (fun c => c = "0"%char) zeros /\ lit = zeros ++ itoa n /\ (n < 65536)%N.

(** values inside of others *)
Inductive part (x : json) : json -> Prop :=
| part_self : part x x
| part_element : forall l y, In y l -> part x y -> part x (JArr l)
| part_member : forall l k y, In (k, y) l -> part x y -> part x (JObj l).

(** null fits everything; members that no field is named after are not looked at *)
Inductive fits (decl : string -> list (string * kind)) (float : string -> bool) : kind -> json -> Prop :=
| fits_null : forall k, fits decl float k JNull
| fits_text : forall s, fits decl float Text (JStr s)
| fits_flag : forall b, fits decl float Flag (JBool b)
| fits_small : forall lit, small lit -> fits decl float Small (JNum lit)
| fits_any : forall j, (forall lit, part (JNum lit) j -> float lit = true) -> fits decl float Anything j
| fits_list : forall k l, (forall x, In x l -> fits decl float k x) -> fits decl float (ListOf k) (JArr l)
| fits_struct : forall r l,
    (forall name j field k, In (name, j) l -> In (field, k) (decl r) -> to_lower field = to_lower name -> fits decl float k j) ->
    fits decl float (Pointer r) (JObj l).

(** octopus/table.go:11-27, 102-107; octopus/column.go:17-37 *)
Definition octopus_structs (r : string) : list (string * kind) :=
  if String.eqb r "Schema" then [("author", Text); ("name", Text); ("version", Text); ("tables", ListOf (Pointer "Table"))]
  else if String.eqb r "Table" then
    [("name", Text); ("columns", ListOf (Pointer "Column")); ("desc", Text); ("group", Text); ("className", Text);
     ("indices", ListOf (Pointer "Index"))]
  else if String.eqb r "Index" then [("name", Text); ("columns", ListOf Text)]
  else if String.eqb r "Column" then
    [("name", Text); ("type", Text); ("desc", Text); ("size", Small); ("scale", Small); ("notnull", Flag); ("pk", Flag);
     ("unique", Flag); ("autoinc", Flag); ("default", Text); ("onupdate", Text); ("values", ListOf Text); ("ref", Pointer "Reference")]
  else if String.eqb r "Reference" then [("table", Text); ("column", Text); ("relationship", Text)]
  else [].

(** ojson/table.go:12-18, 71-76; ojson/column.go:9-26 *)
Definition v1_structs (r : string) : list (string * kind) :=
  if String.eqb r "Schema" then [("author", Text); ("name", Text); ("version", Text); ("tables", ListOf (Pointer "Table"))]
  else if String.eqb r "Table" then
    [("name", Text); ("columns", ListOf (Pointer "Column")); ("desc", Text); ("group", Text); ("className", Text)]
  else if String.eqb r "Column" then
    [("name", Text); ("type", Text); ("description", Text); ("size", Small); ("scale", Small); ("notnull", Flag); ("pk", Flag);
     ("unique", Flag); ("autoinc", Flag); ("default", Text); ("ref", Pointer "Reference")]
  else if String.eqb r "Reference" then [("table", Text); ("column", Text)]
  else [].

(** staruml/staruml.go:3-26 *)
Definition star_structs (r : string) : list (string * kind) :=
  if String.eqb r "Element" then
    [("_type", Text); ("_id", Text); ("_parent", Pointer "Ref"); ("name", Text); ("length", Anything); ("type", Text);
     ("primaryKey", Flag); ("unique", Flag); ("nullable", Flag); ("documentation", Text); ("head", Pointer "Ref");
     ("end1", Pointer "Ref"); ("end2", Pointer "Ref"); ("reference", Pointer "Ref"); ("referenceTo", Pointer "Ref");
     ("ownedElements", ListOf (Pointer "Element")); ("columns", ListOf (Pointer "Element"))]
  else if String.eqb r "Ref" then [("$ref", Text)]
  else [].

(** texts that are not JSON, or whose values do not fit *)
Definition unfit (decl : string -> list (string * kind)) (float : string -> bool) (root text : string) : Prop :=
  forall j, json_text text j -> within 10000 j -> ~ fits decl float (Pointer root) j.

(** the commands with a schema file as their input *)
Definition schema_commands : list command :=
  [ExportDbml; ExportQuickdbd; ExportMysql; ExportXlsx; GenerateGorm; GenerateGraphql; GenerateKt; GenerateLiquibase; GeneratePlantuml;
   GeneratePb; GenerateSqlalchemy].
