(** The rest of /repo/format/ojson (table.go:20-136, column.go:28-38): saving and asking octopus v1 schemas.
    Nothing in the program calls these functions. ToSchema (returns its argument), ToFile and FromFile
    (ToJson and FromJson with a file) are left out. Same simplifications as in Json.v. *)
From Coq Require Import String Ascii List NArith Bool.
From Verif.Model Require Import GoString Util Octopus Common Json JsonText Ojson.
Import ListNotations.
Local Open Scope string_scope.

(** table.go:20-24 AddColumn; [None] is nil *)
Definition v1_add_column (t : v1_table) (c : option v1_column) : v1_table :=
  match c with Some c => v1_with_cols t (o_cols t ++ [c])%list | None => t end.

(** table.go:26-34 ColumnByName, as a lookup: the last column of that name wins *)
Fixpoint v1_column_by_name (cs : list v1_column) (name : string) : option v1_column :=
  match cs with
  | [] => None
  | c :: cs' =>
      match v1_column_by_name cs' name with
      | Some c' => Some c'
      | None => if String.eqb (o_name c) name then Some c else None
      end
  end.

(** table.go:36-44 PrimaryKeyNameSet *)
Definition v1_pk_name_set (t : v1_table) : sset :=
  fold_left (fun s c => if o_pk c then ss_add s (o_name c) else s) (o_cols t) (ss_new []).

(** table.go:46-54 UniqueKeyNameSet *)
Definition v1_uq_name_set (t : v1_table) : sset :=
  fold_left (fun s c => if o_uq c then ss_add s (o_name c) else s) (o_cols t) (ss_new []).

(** table.go:79-87 TablesByName, as a lookup: the last table of that name wins *)
Fixpoint v1_tables_by_name (ts : list v1_table) (name : string) : option v1_table :=
  match ts with
  | [] => None
  | t :: ts' =>
      match v1_tables_by_name ts' name with
      | Some t' => Some t'
      | None => if String.eqb (o_tname t) name then Some t else None
      end
  end.

(** table.go:90-97 TableByName: the first one *)
Fixpoint v1_table_by_name (ts : list v1_table) (name : string) : option v1_table :=
  match ts with
  | [] => None
  | t :: ts' => if String.eqb (o_tname t) name then Some t else v1_table_by_name ts' name
  end.

(** table.go:99-107 Groups *)
Definition v1_groups (s : v1_schema) : list string :=
  sort_strings (ss_slice (ss_new (map o_group (o_tables s)))).

(** column.go:28-38 IsRenamed *)
Definition v1_is_renamed (c target : v1_column) (exclude_desc : bool) : bool :=
  String.eqb (o_type c) (o_type target) &&
  (exclude_desc || String.eqb (o_desc c) (o_desc target)) &&
  N.eqb (o_size c) (o_size target) &&
  N.eqb (o_scale c) (o_scale target) &&
  Bool.eqb (o_notnull c) (o_notnull target) &&
  Bool.eqb (o_pk c) (o_pk target) &&
  Bool.eqb (o_uq c) (o_uq target) &&
  Bool.eqb (o_autoinc c) (o_autoinc target) &&
  String.eqb (o_default c) (o_default target).

(** table.go:139-157 Normalize. [sortf] is sort.Sort on TableSlice. *)
Definition v1_normalize (sortf : list v1_table -> list v1_table) (s : v1_schema) : res v1_schema :=
  match res_map (fun t => match res_map v1_normalize_col (o_cols t) with
                          | Panic => Panic
                          | Ok cs => Ok (v1_with_cols t cs)
                          end) (sortf (o_tables s)) with
  | Panic => Panic
  | Ok ts => Ok (mkV1Schema (o_author s) (o_sname s) (o_version s) ts)
  end.

(** encoding/json on the structs of column.go:9-12 *)
Definition v1_enc_ref (r : v1_reference) : json :=
  JObj (om_str "table" (o_ref_table r) ++ om_str "column" (o_ref_column r))%list.

(** column.go:14-26 *)
Definition v1_enc_column (c : v1_column) : json :=
  JObj ([("name", JStr (o_name c)); ("type", JStr (o_type c))]
        ++ om_str "description" (o_desc c)
        ++ om_num "size" (o_size c)
        ++ om_num "scale" (o_scale c)
        ++ om_bool "notnull" (o_notnull c)
        ++ om_bool "pk" (o_pk c)
        ++ om_bool "unique" (o_uq c)
        ++ om_bool "autoinc" (o_autoinc c)
        ++ om_str "default" (o_default c)
        ++ match o_ref c with None => [] | Some r => [("ref", v1_enc_ref r)] end)%list.

(** table.go:12-18 *)
Definition v1_enc_table (t : v1_table) : json :=
  JObj (om_str "name" (o_tname t)
        ++ om_arr "columns" (map v1_enc_column (o_cols t))
        ++ om_str "desc" (o_tdesc t)
        ++ om_str "group" (o_group t)
        ++ om_str "className" (o_class t))%list.

(** table.go:71-76 *)
Definition v1_enc_schema (s : v1_schema) : json :=
  JObj (om_str "author" (o_author s)
        ++ om_str "name" (o_sname s)
        ++ om_str "version" (o_version s)
        ++ om_arr "tables" (map v1_enc_table (o_tables s)))%list.

(** table.go:121-124 ToJson: the text, and the schema it leaves behind *)
Definition v1_to_text (sortf : list v1_table -> list v1_table) (s : v1_schema) : res (string * v1_schema) :=
  match v1_normalize sortf s with
  | Panic => Panic
  | Ok s' => Ok (put_value "" (v1_enc_schema s'), s')
  end.
