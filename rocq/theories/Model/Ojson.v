(** Model of /repo/format/ojson: importer.go, column.go, table.go, types.go (octopus v1 files),
    after the JSON text has been decoded into structs (importer.go:33-36). *)
From Coq Require Import String Ascii List NArith Bool.
From Verif.Model Require Import GoString Util Octopus Common.
Import ListNotations.
Local Open Scope string_scope.

(** column.go:9-12 *)
Record v1_reference := mkV1Ref { o_ref_table : string; o_ref_column : string }.

(** column.go:14-26 *)
Record v1_column := mkV1Col {
  o_name : string;
  o_type : string;
  o_desc : string;
  o_size : N;
  o_scale : N;
  o_notnull : bool;
  o_pk : bool;
  o_uq : bool;
  o_autoinc : bool;
  o_default : string;
  o_ref : option v1_reference
}.

(** table.go:12-18 *)
Record v1_table := mkV1Table {
  o_tname : string;
  o_cols : list v1_column;
  o_tdesc : string;
  o_group : string;
  o_class : string
}.

(** table.go:71-76 *)
Record v1_schema := mkV1Schema {
  o_author : string;
  o_sname : string;
  o_version : string;
  o_tables : list v1_table
}.

(** table.go:59-67 TableSlice.Less *)
Definition v1_table_less (a b : v1_table) : bool :=
  if str_ltb (o_group a) (o_group b) then true
  else if String.eqb (o_group a) (o_group b) then str_ltb (o_tname a) (o_tname b)
  else false.

(** table.go:160-198 normalizeColumnType *)
Definition v1_normalize_type (typ : string) : string * bool :=
  let t := to_lower typ in
  if str_in t ["string"; "varchar"; "char"] then ("string", true)
  else if str_in t ["int"; "integer"; "smallint"] then ("int", true)
  else if str_in t ["bigint"; "long"] then ("long", true)
  else if String.eqb t "datetime" then ("datetime", true)
  else if str_in t ["bool"; "boolean"] then ("boolean", true)
  else if str_in t ["number"; "double"; "decimal"] then ("decimal", true)
  else if String.eqb t "float" then ("float", true)
  else if String.eqb t "text" then ("text", true)
  else if String.eqb t "date" then ("date", true)
  else if String.eqb t "time" then ("time", true)
  else if String.eqb t "blob" then ("blob", true)
  else (t, false).

(** column.Type = colType and Validate(true) of column.go:40-55; [None] is the error *)
Definition v1_validate (c : v1_column) (t : string) : option v1_column :=
  if String.eqb (o_name c) "" then None
  else
    let autoinc := o_autoinc c && (String.eqb t "int" || String.eqb t "long") in
    Some (mkV1Col (o_name c) t (o_desc c) (o_size c) (o_scale c) (o_notnull c) (o_pk c) (o_uq c)
                  autoinc (o_default c) (o_ref c)).

(** table.go:143-155, one column; log.Panicf at line 149 *)
Definition v1_normalize_col (c : v1_column) : res v1_column :=
  match v1_normalize_type (o_type c) with
  | (t, true) => match v1_validate c t with Some c' => Ok c' | None => Panic end
  | (_, false) => Ok c
  end.

(** importer.go:67-88 fromOjsonColumn; line 85 takes the description as default value *)
Definition from_v1_column (c : v1_column) : column :=
  mkCol (o_name c) (o_type c) (o_desc c) (o_size c) (o_scale c) (o_notnull c) (o_pk c) (o_uq c)
        (o_autoinc c) (o_desc c) "" []
        (option_map (fun r => mkRef (o_ref_table r) (o_ref_column r) "") (o_ref c)).

(** importer.go:53-65 fromOjsonTable *)
Definition from_v1_table (t : v1_table) : table :=
  mkTable (o_tname t) (map from_v1_column (o_cols t)) (o_tdesc t) (o_group t) "" [].

Definition v1_with_cols (t : v1_table) (cs : list v1_column) : v1_table :=
  mkV1Table (o_tname t) cs (o_tdesc t) (o_group t) (o_class t).

(** table.go:139-157 Normalize, importer.go:37-50. [sortf] is sort.Sort on TableSlice. *)
Definition import_v1 (sortf : list v1_table -> list v1_table) (s : v1_schema) : res schema :=
  match res_map (fun t => match res_map v1_normalize_col (o_cols t) with
                          | Panic => Panic
                          | Ok cs => Ok (v1_with_cols t cs)
                          end) (sortf (o_tables s)) with
  | Panic => Panic
  | Ok ts => Ok (mkSchema (o_author s) (o_sname s) (o_version s) (map from_v1_table ts))
  end.

(** A concrete sort for the examples *)
Fixpoint insert_v1 (t : v1_table) (l : list v1_table) : list v1_table :=
  match l with
  | [] => [t]
  | y :: l' => if v1_table_less y t then y :: insert_v1 t l' else t :: l
  end.
Fixpoint isort_v1 (l : list v1_table) : list v1_table :=
  match l with
  | [] => []
  | t :: l' => insert_v1 t (isort_v1 l')
  end.
