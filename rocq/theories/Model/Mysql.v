(** Model of /repo/format/mysql: exporter.go, importer.go *)
From Coq Require Import String Ascii List NArith ZArith Bool.
From Verif.Model Require Import GoString Util Octopus Common.
Import ListNotations.
Local Open Scope string_scope.

Definition newline : string := String (ascii_of_nat 10) "".

(** ** exporter.go *)

(** exporter.go:123-125 quote *)
Definition my_quote (name : string) : string := "`" ++ name ++ "`".

(** exporter.go:127-136 formatColumnType *)
Definition format_column_type (ty : string) (c : column) : string :=
  if N.ltb 0 (c_size c) then
    if N.ltb 0 (c_scale c)
    then ty ++ "(" ++ itoa (c_size c) ++ "," ++ itoa (c_scale c) ++ ")"
    else ty ++ "(" ++ itoa (c_size c) ++ ")"
  else ty.

(** exporter.go:138-205 ToMysqlColumnType *)
Definition to_mysql_column_type (c : column) : string :=
  let t := c_type c in
  if String.eqb t "binary" then "binary"
  else if String.eqb t "bit" then format_column_type "bit" c
  else if String.eqb t "blob8" then "tinyblob"
  else if String.eqb t "blob16" then "blob"
  else if String.eqb t "blob24" then "mediumblob"
  else if String.eqb t "blob32" then "longblob"
  else if String.eqb t "boolean" then "bit(1)"
  else if String.eqb t "char" then format_column_type "char" c
  else if String.eqb t "date" then "date"
  else if String.eqb t "datetime" then "datetime"
  else if String.eqb t "decimal" then format_column_type "decimal" c
  else if String.eqb t "double" then format_column_type "double" c
  else if String.eqb t "enum" then "enum(" ++ quote_and_join (c_values c) "'" ", " ++ ")"
  else if String.eqb t "float" then format_column_type "float" c
  else if String.eqb t "geometry" then "geometry"
  else if String.eqb t "int8" then format_column_type "tinyint" c
  else if String.eqb t "int16" then format_column_type "smallint" c
  else if String.eqb t "int24" then format_column_type "mediumint" c
  else if String.eqb t "int32" then format_column_type "int" c
  else if String.eqb t "int64" then format_column_type "bigint" c
  else if String.eqb t "json" then "json"
  else if String.eqb t "point" then "point"
  else if String.eqb t "set" then "set(" ++ quote_and_join (c_values c) "'" ", " ++ ")"
  else if String.eqb t "text8" then "tinytext"
  else if String.eqb t "text16" then "text"
  else if String.eqb t "text24" then "mediumtext"
  else if String.eqb t "text32" then "longtext"
  else if String.eqb t "time" then "time"
  else if String.eqb t "varbinary" then "varbinary"
  else if String.eqb t "varchar" then format_column_type "varchar" c
  else if String.eqb t "year" then "year"
  else t.

(** exporter.go:219-227, 231-239: the text of a default or on-update value *)
Definition value_text (ty : string) (v : string * bool) : string :=
  if snd v then fst v ++ "()"
  else if is_string_type ty then "'" ++ fst v ++ "'" else fst v.

(** exporter.go:207-247 ColumnConstraints *)
Definition column_constraint_list (c : column) : list string :=
  (if c_notnull c then ["NOT NULL"] else []) ++
  (if c_autoinc c then ["AUTO_INCREMENT"] else []) ++
  (if negb (String.eqb (c_default c) "") then ["DEFAULT " ++ value_text (c_type c) (get_default_value c)] else []) ++
  (if negb (String.eqb (c_onupdate c) "") then ["ON UPDATE " ++ value_text (c_type c) (get_on_update c)] else []) ++
  (if negb (String.eqb (c_desc c) "") then ["COMMENT '" ++ c_desc c ++ "'"] else []).
Definition column_constraints (c : column) : string := join " " (column_constraint_list c).

(** exporter.go:78-85 *)
Definition column_definition (c : column) : string :=
  let cons := column_constraints c in
  join " " ([c_name c; to_mysql_column_type c] ++ (if String.eqb cons "" then [] else [cons])).

(** exporter.go:74-106 *)
Definition table_definitions (suffix : string) (t : table) : list string :=
  let pk := map (fun c => my_quote (c_name c)) (filter c_pk (t_cols t)) in
  let uq := map (fun c => my_quote (c_name c)) (filter c_uq (t_cols t)) in
  map column_definition (t_cols t) ++
  (match pk with [] => [] | _ => ["PRIMARY KEY (" ++ join ", " pk ++ ")"] end) ++
  (match uq with
   | [] => []
   | _ => ["UNIQUE KEY " ++ my_quote (t_name t ++ suffix) ++ " (" ++ join ", " uq ++ ")"]
   end) ++
  map (fun i => "INDEX " ++ my_quote (ix_name i) ++ " (" ++ quote_and_join (ix_cols i) "`" ", " ++ ")") (t_indices t).

(** exporter.go:108-113 *)
Fixpoint comma_except_last (ds : list string) : list string :=
  match ds with
  | [] => []
  | [d] => [d]
  | d :: ds' => (d ++ ",") :: comma_except_last ds'
  end.

(** exporter.go:12-18 ExportTemplate, 115-120 (text/template prints strings as they are) *)
Definition export_table (suffix : string) (t : table) : string :=
  "CREATE TABLE IF NOT EXISTS " ++ t_name t ++ " (" ++ newline ++
  String.concat "" (map (fun d => "  " ++ d ++ newline) (comma_except_last (table_definitions suffix t))) ++
  ");" ++ newline.

(** exporter.go:38-56 Export *)
Definition my_export (f : option (table -> bool)) (suffix : string) (s : schema) : string :=
  String.concat "" (map (export_table suffix) (filter (passes f) (s_tables s))).

(** ** The part of pingcap's syntax tree that importer.go looks at (not code of /repo) *)

Inductive my_tp :=
| TpDecimal | TpTiny | TpShort | TpLong | TpFloat | TpDouble | TpNull | TpTimestamp | TpLonglong | TpInt24
| TpDate | TpDuration | TpDatetime | TpYear | TpNewDate | TpVarchar | TpBit | TpJSON | TpNewDecimal
| TpEnum | TpSet | TpTinyBlob | TpMediumBlob | TpLongBlob | TpBlob | TpVarString | TpString | TpGeometry.

(** types.FieldType; [ft_str] is String(), [ft_info] is InfoSchemaStr(), [ft_binary] says
    that Flag is exactly BinaryFlag *)
Record field_type := mkFT {
  ft_tp : my_tp; ft_flen : Z; ft_dec : Z; ft_binary : bool; ft_elems : list string;
  ft_str : string; ft_info : string
}.

(** the expression of an option: a literal (the text fmt prints for it, None for NULL), a
    function call, or something else *)
Inductive my_expr := EValue (v : option string) | EFunc (name : string) | EOther.

(** ast.ColumnOption; a comment's expression is always a literal *)
Inductive col_option :=
| OPrimaryKey | ONotNull | OAutoIncrement | ODefault (e : my_expr) | ONull | OOnUpdate (e : my_expr)
| OComment (v : string) | OUniqKey | OOther.

Record col_def := mkColDef { cd_name : string; cd_type : field_type; cd_options : list col_option }.

(** ast.Constraint; keys are column names. [KExpr] is a PRIMARY KEY, INDEX or UNIQUE constraint with an expression
    among its parts: there Column is nil. *)
Inductive my_constraint :=
| KPrimaryKey (keys : list string) | KIndex (name : string) (keys : list string)
| KUniq (name : string) (keys : list string) | KExpr | KOther.

Inductive my_stmt := SCreateTable (name : string) (cols : list col_def) (ks : list my_constraint) | SOther.

(** ** importer.go *)

(** uint16(n) if n > 0, else 0: importer.go:225-231 *)
Definition pos_u16 (z : Z) : N := if Z.ltb 0 z then u16 (Z.to_N z) else 0%N.

(** importer.go:224-318 columnType *)
Definition import_column_type (ft : field_type) : string * N * N :=
  let size := pos_u16 (ft_flen ft) in
  let scale := pos_u16 (ft_dec ft) in
  let has_text w := contains w (to_lower (ft_str ft)) in
  match ft_tp ft with
  | TpDecimal => ("decimal", size, scale)
  | TpTiny => if Z.eqb (ft_flen ft) 1 then ("boolean", 0%N, 0%N) else ("int8", size, 0%N)
  | TpShort => ("int16", size, 0%N)
  | TpLong => ("int32", size, 0%N)
  | TpFloat => ("float", size, scale)
  | TpDouble => ("double", size, scale)
  | TpNull => (ft_info ft, size, scale)
  | TpTimestamp => ("datetime", 0%N, 0%N)
  | TpLonglong => ("int64", size, 0%N)
  | TpInt24 => ("int24", size, 0%N)
  | TpDate => ("date", 0%N, 0%N)
  | TpDuration => ("time", 0%N, 0%N)
  | TpDatetime => ("datetime", 0%N, 0%N)
  | TpYear => ("year", 0%N, 0%N)
  | TpNewDate => ("date", 0%N, 0%N)
  | TpVarchar => ("varchar", size, 0%N)
  | TpBit => if Z.eqb (ft_flen ft) 1 then ("boolean", 0%N, 0%N) else ("bit", size, 0%N)
  | TpJSON => ("json", 0%N, 0%N)
  | TpNewDecimal => ("decimal", size, scale)
  | TpEnum => ("enum", 0%N, 0%N)
  | TpSet => ("set", 0%N, 0%N)
  | TpTinyBlob => (if has_text "tinytext" then "text8" else "blob8", 0%N, 0%N)
  | TpMediumBlob => (if has_text "mediumtext" then "text24" else "blob24", 0%N, 0%N)
  | TpLongBlob => (if has_text "longtext" then "text32" else "blob32", 0%N, 0%N)
  | TpBlob => (if has_text "text" then "text16" else "blob16", 0%N, 0%N)
  | TpString => (if ft_binary ft then "binary" else "char", size, 0%N)
  | TpGeometry => ("geometry", 0%N, 0%N)
  | TpVarString => (ft_info ft, size, scale)
  end.

(** importer.go:214-222 columnValues *)
Definition import_column_values (ty : string) (ft : field_type) : list string :=
  if String.eqb ty "enum" || String.eqb ty "set" then ft_elems ft else [].

Definition with_notnull_flag (c : column) (b : bool) : column :=
  mkCol (c_name c) (c_type c) (c_desc c) (c_size c) (c_scale c) b (c_pk c) (c_uq c)
        (c_autoinc c) (c_default c) (c_onupdate c) (c_values c) (c_ref c).
Definition with_pk (c : column) (b : bool) : column :=
  mkCol (c_name c) (c_type c) (c_desc c) (c_size c) (c_scale c) (c_notnull c) b (c_uq c)
        (c_autoinc c) (c_default c) (c_onupdate c) (c_values c) (c_ref c).
Definition with_desc (c : column) (d : string) : column :=
  mkCol (c_name c) (c_type c) d (c_size c) (c_scale c) (c_notnull c) (c_pk c) (c_uq c)
        (c_autoinc c) (c_default c) (c_onupdate c) (c_values c) (c_ref c).

(** importer.go:160-210, one option. ColumnOptionUniqKey has no case. *)
Definition import_option (c : column) (o : col_option) : column :=
  match o with
  | OPrimaryKey => with_notnull_flag (with_pk c true) true
  | ONotNull => with_notnull_flag c true
  | OAutoIncrement => with_notnull_flag (with_autoinc c true) true
  | ODefault (EValue v) => set_default_value c v
  | ODefault (EFunc f) => set_default_value_fn c f
  | ODefault EOther => c
  | ONull => with_notnull_flag c false
  | OOnUpdate (EValue v) => set_on_update c v
  | OOnUpdate (EFunc f) => set_on_update_fn c f
  | OOnUpdate EOther => c
  | OComment v => with_desc c v
  | OUniqKey | OOther => c
  end.

(** importer.go:142-212 column *)
Definition import_column (pk uq : sset) (cd : col_def) : column :=
  let '(ty, size, scale) := import_column_type (cd_type cd) in
  let c := mkCol (cd_name cd) ty "" size scale false (ss_contains pk (cd_name cd)) (ss_contains uq (cd_name cd))
                 false "" "" (import_column_values ty (cd_type cd)) None in
  fold_left import_option (cd_options cd) c.

(** importer.go:84-118: pkSet, uniqSet, indices; see [constraint_panics] for [KExpr] *)
Definition import_constraint (st : sset * sset * list index) (k : my_constraint) : sset * sset * list index :=
  let '(pk, uq, ixs) := st in
  match k with
  | KPrimaryKey keys => (fold_left ss_add keys pk, uq, ixs)
  | KIndex name keys => (pk, uq, (ixs ++ [mkIdx name keys])%list)
  | KUniq _ keys => (pk, fold_left ss_add keys uq, ixs)
  | KExpr | KOther => st
  end.

(** importer.go:77-136 Enter, one statement *)
Definition import_stmt (excludes : sset) (s : my_stmt) : list table :=
  match s with
  | SCreateTable name cols ks =>
      if ss_contains excludes name then []
      else
        let '(pk, uq, ixs) := fold_left import_constraint ks (ss_new [], ss_new [], []) in
        [mkTable name (map (import_column pk uq) cols) "" "" "" ixs]
  | SOther => []
  end.

(** importer.go:91, 98, 104: key.Column is dereferenced, so an expression is a nil pointer there; tables that are
    excluded are not looked at (lines 80-82) *)
Definition constraint_panics (k : my_constraint) : bool := match k with KExpr => true | _ => false end.
Definition stmt_panics (excludes : sset) (s : my_stmt) : bool :=
  match s with
  | SCreateTable name _ ks => negb (ss_contains excludes name) && existsb constraint_panics ks
  | SOther => false
  end.

(** importer.go:43-69 ImportSql, after parsing, if there is no panic *)
Definition import_stmts (excludes : list string) (author version : string) (stmts : list my_stmt) : schema :=
  mkSchema author "" version (flat_map (import_stmt (ss_new excludes)) stmts).
(** importer.go:43-69 ImportSql, after parsing *)
Definition import_sql (excludes : list string) (author version : string) (stmts : list my_stmt) : res schema :=
  if existsb (stmt_panics (ss_new excludes)) stmts then Panic else Ok (import_stmts excludes author version stmts).
