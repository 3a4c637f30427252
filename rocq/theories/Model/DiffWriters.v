(** Model of /repo/format/diff: mysql.go, flyway.go, markdown.go.
    Writing to the io.Writer never fails here; the text written is the result. *)
From Coq Require Import String Ascii List NArith Bool.
From Verif.Model Require Import GoString Util Octopus DiffCore Diff Mysql.
Import ListNotations.
Local Open Scope string_scope.

(** ** mysql.go *)

(** mysql.go:26-61 ToSQL and the functions it calls, 63-184. No change gives an error:
    ExportTable only fails when the writer does. [suffix] is option.UniqueNameSuffix. *)
Definition to_sql (suffix : string) (ch : change) : list string :=
  match ch with
  | CreateTable t => [export_table suffix t]
  | DropTable t => ["DROP TABLE " ++ t_name t ++ ";"]
  | RenameTable old nw => ["RENAME TABLE " ++ t_name old ++ " TO " ++ t_name nw ++ ";"]
  | UpdatePrimaryKey _ nw =>
      let names := ss_slice (pk_name_set nw) in
      ("ALTER TABLE " ++ t_name nw ++ " DROP PRIMARY KEY;") ::
      (if Nat.ltb 0 (length names)
       then ["ALTER TABLE " ++ t_name nw ++ " ADD PRIMARY KEY (" ++ join "," names ++ ");"] else [])
  | CreateUniqueConstraint _ _ => []
  | DropUniqueConstraint _ _ => []
  | SetTableComment _ => []
  | AddColumn t c =>
      let cons := column_constraints c in
      ["ALTER TABLE " ++ t_name t ++ " MODIFY ADD " ++ c_name c ++ " " ++ to_mysql_column_type c ++
       (if negb (String.eqb cons "") then " " ++ cons else "") ++ ";"]
  | DropColumn _ _ => []
  | SetColumnComment _ _ => []
  | ChangeColumnType _ _ _ => []
  | RenameColumn _ _ _ => []
  | SetNotNullConstraint t c =>
      if c_notnull c
      then ["ALTER TABLE " ++ t_name t ++ " MODIFY " ++ c_name c ++ " " ++ to_mysql_column_type c ++ " NOT NULL;"]
      else ["ALTER TABLE " ++ t_name t ++ " MODIFY " ++ c_name c ++ " " ++ to_mysql_column_type c ++ ";"]
  | SetAutoIncrement t c =>
      if c_autoinc c
      then [join " " ["ALTER TABLE " ++ t_name t ++ " MODIFY COLUMN " ++ c_name c ++ " " ++ to_mysql_column_type c;
                      column_constraints c] ++ ";"]
      else ["ALTER TABLE " ++ t_name t ++ " MODIFY COLUMN " ++ c_name c ++ " " ++ to_mysql_column_type c ++
            " AUTO_INCREMENT PRIMARY KEY;"]
  | SetDefaultValue _ _ => []
  end.

(** flyway.go:17-21; markdown.go:22-26 WriteLine, for several lines *)
Definition write_lines (ls : list string) : string := String.concat "" (map (fun l => l ++ newline) ls).

(** ** flyway.go:42-56 Write *)
Definition flyway_write (suffix : string) (css : list cset) : string :=
  String.concat "" (map (fun cs => write_lines (flat_map (to_sql suffix) (cs_changes cs)) ++ write_lines [""]) css).

(** ** markdown.go *)

(** U+2192 in UTF-8 *)
Definition arrow : string :=
  String (ascii_of_nat 226) (String (ascii_of_nat 134) (String (ascii_of_nat 146) "")).

(** markdown.go:121-234 toMarkdownLine *)
Definition md_line (ch : change) : string :=
  match ch with
  | CreateTable _ => "create table"
  | DropTable _ => "drop table"
  | RenameTable old nw => "rename table `" ++ t_name old ++ "` " ++ arrow ++ " `" ++ t_name nw ++ "`"
  | UpdatePrimaryKey old nw =>
      "update PK: [" ++ join ", " (ss_slice (pk_name_set old)) ++ "] " ++ arrow ++
      " [" ++ join ", " (ss_slice (pk_name_set nw)) ++ "]"
  | CreateUniqueConstraint _ t => "create unique constraint: [" ++ join ", " (ss_slice (uq_name_set t)) ++ "]"
  | DropUniqueConstraint _ t => "drop unique constraint: [" ++ join ", " (ss_slice (uq_name_set t)) ++ "]"
  | SetTableComment t => "update table comment: `" ++ t_desc t ++ "`"
  | AddColumn _ c => "add column: `" ++ c_name c ++ "`"
  | DropColumn _ n => "drop column: `" ++ n ++ "`"
  | SetColumnComment _ c => "update column comment: `" ++ c_name c ++ "` :`" ++ c_desc c ++ "`"
  | ChangeColumnType _ o n =>
      "change column type: `" ++ c_name n ++ "` :`" ++ col_format o ++ "` " ++ arrow ++ " `" ++ col_format n ++ "`"
  | RenameColumn _ o n => "rename column: `" ++ c_name o ++ "` " ++ arrow ++ " `" ++ c_name n ++ "`"
  | SetNotNullConstraint _ c =>
      if c_notnull c then "set not null: `" ++ c_name c ++ "`" else "set nullable: `" ++ c_name c ++ "`"
  | SetAutoIncrement _ c =>
      if c_autoinc c then "set auto incremental: `" ++ c_name c ++ "`"
      else "remove auto incremental: `" ++ c_name c ++ "`"
  | SetDefaultValue _ c =>
      if String.eqb (c_default c) "" then "remove default value: `" ++ c_name c ++ "`"
      else "update default value: `" ++ c_name c ++ "` : `" ++ c_default c ++ "`"
  end.

(** markdown.go:88-94: changesByTable *)
Definition changes_by_table (css : list cset) : mmap (K := string) (V := change) :=
  fold_left (fun m cs => fold_left (fun m ch => mm_put String.eqb m (t_name (dep_table ch)) ch) (cs_changes cs) m) css [].

(** markdown.go:81-119 Write, the lines. [ord] is the iteration order of the map behind
    Keys(). The keys are distinct, so sort.Slice has only one possible result. *)
Definition md_lines (ord : list string -> list string) (from to : schema) (css : list cset) : list string :=
  let m := changes_by_table css in
  let keys := sort_strings (mm_keys ord m) in
  "# DB Schema changes" :: "" :: ("* from: `" ++ s_version from ++ "`") :: ("* to: `" ++ s_version to ++ "`") ::
  flat_map (fun k =>
    "" :: ("## " ++ k) ::
    map (fun ch => "* " ++ md_line ch) (match mm_get String.eqb m k with Some l => l | None => [] end)) keys.
Definition md_write ord from to css : string := write_lines (md_lines ord from to css).
