(** Model of /repo/format/octopus: column.go, table.go, types.go, filter.go, io.go *)
From Coq Require Import String Ascii List NArith Bool.
From Verif.Model Require Import GoString Util.
Import ListNotations.
Local Open Scope string_scope.

(** ** Data: column.go:17-37, table.go:11-27, 102-107 *)

(** column.go:17-21 *)
Record reference := mkRef {
  ref_table : string;
  ref_column : string;
  ref_rel : string
}.

(** column.go:23-37; uint16 fields are [N] *)
Record column := mkCol {
  c_name : string;
  c_type : string;
  c_desc : string;
  c_size : N;
  c_scale : N;
  c_notnull : bool;
  c_pk : bool;
  c_uq : bool;
  c_autoinc : bool;
  c_default : string;
  c_onupdate : string;
  c_values : list string;
  c_ref : option reference
}.

(** table.go:11-14 *)
Record index := mkIdx { ix_name : string; ix_cols : list string }.

(** table.go:20-27 *)
Record table := mkTable {
  t_name : string;
  t_cols : list column;
  t_desc : string;
  t_group : string;
  t_class : string;
  t_indices : list index
}.

(** table.go:102-107 *)
Record schema := mkSchema {
  s_author : string;
  s_name : string;
  s_version : string;
  s_tables : list table
}.

(** field updates *)
Definition with_type (c : column) (t : string) : column :=
  mkCol (c_name c) t (c_desc c) (c_size c) (c_scale c) (c_notnull c) (c_pk c) (c_uq c)
        (c_autoinc c) (c_default c) (c_onupdate c) (c_values c) (c_ref c).
Definition with_autoinc (c : column) (b : bool) : column :=
  mkCol (c_name c) (c_type c) (c_desc c) (c_size c) (c_scale c) (c_notnull c) (c_pk c) (c_uq c)
        b (c_default c) (c_onupdate c) (c_values c) (c_ref c).
Definition with_default (c : column) (d : string) : column :=
  mkCol (c_name c) (c_type c) (c_desc c) (c_size c) (c_scale c) (c_notnull c) (c_pk c) (c_uq c)
        (c_autoinc c) d (c_onupdate c) (c_values c) (c_ref c).
Definition with_onupdate (c : column) (d : string) : column :=
  mkCol (c_name c) (c_type c) (c_desc c) (c_size c) (c_scale c) (c_notnull c) (c_pk c) (c_uq c)
        (c_autoinc c) (c_default c) d (c_values c) (c_ref c).
Definition with_cols (t : table) (cs : list column) : table :=
  mkTable (t_name t) cs (t_desc t) (t_group t) (t_class t) (t_indices t).
Definition with_tables (s : schema) (ts : list table) : schema :=
  mkSchema (s_author s) (s_name s) (s_version s) ts.

(** ** types.go *)

(** types.go:42-74 colTypeSet *)
Definition col_types : list string :=
  ["binary"; "bit"; "blob16"; "blob24"; "blob32"; "blob8"; "boolean"; "char"; "date";
   "datetime"; "decimal"; "double"; "enum"; "float"; "geometry"; "int16"; "int24"; "int32";
   "int64"; "int8"; "json"; "point"; "set"; "text16"; "text24"; "text32"; "text8"; "time";
   "varbinary"; "varchar"; "year"].

(** types.go:76-84 containsColType *)
Definition contains_col_type (t : string) (ts : list string) : bool := str_in (to_lower t) ts.

(** types.go:86-88 IsValidColType *)
Definition is_valid_col_type (t : string) : bool := str_in t col_types.

(** types.go:90-103 IsColTypeNumeric *)
Definition is_col_type_numeric (t : string) : bool :=
  contains_col_type t ["decimal"; "double"; "float"; "int16"; "int24"; "int32"; "int64"; "int8"].

(** types.go:105-115 IsColTypeAutoIncremental *)
Definition is_col_type_autoinc (t : string) : bool :=
  contains_col_type t ["int16"; "int24"; "int32"; "int64"; "int8"].

(** types.go:117-126 IsColTypeClob *)
Definition is_col_type_clob (t : string) : bool :=
  contains_col_type t ["text8"; "text16"; "text24"; "text32"].

(** types.go:128-136 IsColTypeDecimal *)
Definition is_col_type_decimal (t : string) : bool :=
  contains_col_type t ["float"; "double"; "decimal"].

(** types.go:138-149 IsColTypeString *)
Definition is_col_type_string (t : string) : bool :=
  contains_col_type t ["text8"; "text16"; "text24"; "text32"; "char"; "varchar"].

(** ** column.go *)

(** column.go:43-85 toNormalizedType *)
Definition to_normalized_type (t : string) : string :=
  if String.eqb t "string" then "varchar"
  else if String.eqb t "tinyint" then "int8"
  else if String.eqb t "smallint" then "int16"
  else if String.eqb t "mediumint" then "int24"
  else if String.eqb t "int" then "int32"
  else if String.eqb t "integer" then "int32"
  else if String.eqb t "bigint" then "int64"
  else if String.eqb t "long" then "int64"
  else if String.eqb t "numeric" then "decimal"
  else if String.eqb t "real" then "double"
  else if String.eqb t "timestamp" then "datetime"
  else if String.eqb t "tinyblob" then "blob8"
  else if String.eqb t "blob" then "blob16"
  else if String.eqb t "mediumblob" then "blob24"
  else if String.eqb t "longblob" then "blob32"
  else if String.eqb t "tinytext" then "text8"
  else if String.eqb t "text" then "text16"
  else if String.eqb t "mediumtext" then "text24"
  else if String.eqb t "longtext" then "text32"
  else t.

(** column.go:39-41 NormalizeType *)
Definition normalize_type (c : column) : column :=
  with_type c (to_normalized_type (to_lower (c_type c))).

(** column.go:87-98 IsRenamed *)
Definition is_renamed (c target : column) (exclude_desc : bool) : bool :=
  String.eqb (c_type c) (c_type target) &&
  (exclude_desc || String.eqb (c_desc c) (c_desc target)) &&
  N.eqb (c_size c) (c_size target) &&
  N.eqb (c_scale c) (c_scale target) &&
  Bool.eqb (c_notnull c) (c_notnull target) &&
  Bool.eqb (c_pk c) (c_pk target) &&
  Bool.eqb (c_uq c) (c_uq target) &&
  Bool.eqb (c_autoinc c) (c_autoinc target) &&
  String.eqb (c_default c) (c_default target) &&
  String.eqb (c_onupdate c) (c_onupdate target).

(** errors.go *)
Inductive verror := EmptyColumnName | InvalidAutoIncremental | InvalidColumnValues | InvalidColumnType.

(** column.go:100-134 Validate. Returns the (possibly corrected) column as well. *)
Definition validate (auto_correct : bool) (c : column) : column * option verror :=
  if String.eqb (c_name c) "" then (c, Some EmptyColumnName)
  else
    let bad_autoinc := c_autoinc c && negb (is_col_type_autoinc (c_type c)) in
    if bad_autoinc && negb auto_correct then (c, Some InvalidAutoIncremental)
    else
      let c' := if bad_autoinc then with_autoinc c false else c in
      let n := length (c_values c') in
      if String.eqb (c_type c') "set" && (Nat.leb n 0 || Nat.ltb 64 n)
      then (c', Some InvalidColumnValues)
      else if String.eqb (c_type c') "enum" && Nat.leb n 0
      then (c', Some InvalidColumnValues)
      else if negb (is_valid_col_type (c_type c')) then (c', Some InvalidColumnType)
      else (c', None).

(** column.go:10 FnPrefix *)
Definition fn_prefix : string := "fn::".

(** column.go:136-143 SetDefaultValue; [None] is nil. The value is already the
    text that fmt prints for it. *)
Definition set_default_value (c : column) (v : option string) : column :=
  with_default c (match v with None => "" | Some s => s end).

(** column.go:145-148 SetDefaultValueFn *)
Definition set_default_value_fn (c : column) (f : string) : column :=
  with_default c (fn_prefix ++ f).

(** column.go:176-181 getValue *)
Definition get_value (v : string) : string * bool :=
  if has_prefix fn_prefix v then (string_drop 4 v, true) else (v, false).

(** column.go:150-154 GetDefaultValue *)
Definition get_default_value (c : column) : string * bool := get_value (c_default c).

(** column.go:156-163 SetOnUpdate *)
Definition set_on_update (c : column) (v : option string) : column :=
  with_onupdate c (match v with None => "" | Some s => s end).

(** column.go:165-168 SetOnUpdateFn *)
Definition set_on_update_fn (c : column) (f : string) : column :=
  with_onupdate c (fn_prefix ++ f).

(** column.go:170-174 GetOnUpdate *)
Definition get_on_update (c : column) : string * bool := get_value (c_onupdate c).

(** column.go:183-191 Format *)
Definition col_format (c : column) : string :=
  if N.eqb (c_size c) 0 then c_type c
  else if N.eqb (c_scale c) 0 then c_type c ++ "(" ++ itoa (c_size c) ++ ")"
  else c_type c ++ "(" ++ itoa (c_size c) ++ "," ++ itoa (c_scale c) ++ ")".

(** ** table.go *)

(** table.go:35-43 ColumnNameMap, as a lookup: the last column of that name wins *)
Fixpoint column_name_map (cs : list column) (name : string) : option column :=
  match cs with
  | [] => None
  | c :: cs' =>
      match column_name_map cs' name with
      | Some c' => Some c'
      | None => if String.eqb (c_name c) name then Some c else None
      end
  end.

(** table.go:45-52 ColumnByName: the first one *)
Fixpoint column_by_name (cs : list column) (name : string) : option column :=
  match cs with
  | [] => None
  | c :: cs' => if String.eqb (c_name c) name then Some c else column_by_name cs' name
  end.

(** table.go:54-62 PrimaryKeyNameSet *)
Definition pk_name_set (t : table) : sset :=
  fold_left (fun s c => if c_pk c then ss_add s (c_name c) else s) (t_cols t) (ss_new []).

(** table.go:64-72 UniqueKeyNameSet *)
Definition uq_name_set (t : table) : sset :=
  fold_left (fun s c => if c_uq c then ss_add s (c_name c) else s) (t_cols t) (ss_new []).

(** table.go:74-81 IndexByName *)
Fixpoint index_by_name (ixs : list index) (name : string) : option index :=
  match ixs with
  | [] => None
  | i :: ixs' => if String.eqb (ix_name i) name then Some i else index_by_name ixs' name
  end.

(** table.go:90-98 TableSlice.Less *)
Definition table_less (a b : table) : bool :=
  if str_ltb (t_group a) (t_group b) then true
  else if String.eqb (t_group a) (t_group b) then str_ltb (t_name a) (t_name b)
  else false.

(** table.go:109-118 TablesByName, as a lookup: the last table of that name wins *)
Fixpoint tables_by_name (ts : list table) (name : string) : option table :=
  match ts with
  | [] => None
  | t :: ts' =>
      match tables_by_name ts' name with
      | Some t' => Some t'
      | None => if String.eqb (t_name t) name then Some t else None
      end
  end.

(** table.go:120-128 TableByName: the first one *)
Fixpoint table_by_name (ts : list table) (name : string) : option table :=
  match ts with
  | [] => None
  | t :: ts' => if String.eqb (t_name t) name then Some t else table_by_name ts' name
  end.

(** table.go:130-137 FindReference *)
Definition find_reference (s : schema) (r : reference) : option (table * column) :=
  match table_by_name (s_tables s) (ref_table r) with
  | Some t => match column_by_name (t_cols t) (ref_column r) with
              | Some c => Some (t, c)
              | None => None
              end
  | None => None
  end.

(** table.go:139-147 Groups *)
Definition groups (s : schema) : list string :=
  sort_strings (ss_slice (ss_new (map t_group (s_tables s)))).

(** table.go:184-190, inner loop: normalizes columns until the first error; the
    columns after it stay untouched. *)
Fixpoint normalize_cols (cs : list column) : list column * option verror :=
  match cs with
  | [] => ([], None)
  | c :: cs' =>
      match validate true (normalize_type c) with
      | (c', Some e) => (c' :: cs', Some e)
      | (c', None) => let '(r, e) := normalize_cols cs' in (c' :: r, e)
      end
  end.

(** table.go:183-191, outer loop; the error carries the table name *)
Fixpoint normalize_tables (ts : list table) : list table * option (string * verror) :=
  match ts with
  | [] => ([], None)
  | t :: ts' =>
      match normalize_cols (t_cols t) with
      | (cs, Some e) => (with_cols t cs :: ts', Some (t_name t, e))
      | (cs, None) => let '(r, e) := normalize_tables ts' in (with_cols t cs :: r, e)
      end
  end.

(** table.go:180-193 Normalize. [sortf] is sort.Sort on TableSlice. The schema is
    changed in place, also when an error is returned. *)
Definition normalize (sortf : list table -> list table) (s : schema)
  : schema * option (string * verror) :=
  let '(ts, e) := normalize_tables (sortf (s_tables s)) in (with_tables s ts, e).

(** A concrete sort for sort.Sort(TableSlice), used in examples: insertion sort. *)
Fixpoint insert_table (t : table) (l : list table) : list table :=
  match l with
  | [] => [t]
  | y :: l' => if table_less y t then y :: insert_table t l' else t :: l
  end.
Fixpoint isort_tables (l : list table) : list table :=
  match l with
  | [] => []
  | t :: l' => insert_table t (isort_tables l')
  end.

(** ** filter.go:11-25 GetTableFilterFn; [None] is the nil filter *)
Definition get_table_filter (groups : string) : option (table -> bool) :=
  if String.eqb groups "" then None
  else Some (fun t => str_in (t_group t) (split_char "," groups)).

(** How every caller uses a filter: [filter == nil || filter(table)] *)
Definition passes (f : option (table -> bool)) (t : table) : bool :=
  match f with None => true | Some g => g t end.

(** ** io.go:8-23 LoadSchema, after the file has been read and decoded: the error
    of Normalize (line 20) is dropped. *)
Definition load_schema_decoded (sortf : list table -> list table) (s : schema) : schema :=
  fst (normalize sortf s).
