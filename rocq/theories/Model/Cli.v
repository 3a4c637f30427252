(** Model of the commands: /repo/main.go and the cli.go of every format.

    A command reads files, and its result is the list of files it writes and the way it ends.
    Not modelled here: the parsing of the command line and of environment variables by urfave/cli (see Args.v; the
    values of the flags are given), creating directories, failing file operations, log output. *)
From Coq Require Import String Ascii List NArith ZArith Bool.
From Verif.Model Require Import GoString Util Octopus Common Json JsonText Ojson OjsonText Staruml StarumlText Mysql Xlsx
  Dbml Quickdbd Plantuml Graphql Protobuf Gorm Sqlalchemy Jpa Liquibase DiffCore Diff DiffWriters.
Import ListNotations.
Local Open Scope string_scope.

(** ** Commands and flags *)

(** main.go:30-158 *)
Inductive command :=
| Init
| ImportMysql | ImportOjson | ImportStaruml | ImportXlsx
| ExportDbml | ExportQuickdbd | ExportMysql | ExportXlsx
| GenerateGorm | GenerateGraphql | GenerateKt | GenerateLiquibase | GeneratePlantuml | GeneratePb
| GenerateSqlalchemy
| DiffFlyway | DiffLiquibase | DiffMd.

(** main.go:30-158: the words that select a command *)
Definition command_words (c : command) : list string :=
  match c with
  | Init => ["init"]
  | ImportMysql => ["import"; "mysql"]
  | ImportOjson => ["import"; "ojson"]
  | ImportStaruml => ["import"; "staruml"]
  | ImportXlsx => ["import"; "xlsx"]
  | ExportDbml => ["export"; "dbml"]
  | ExportQuickdbd => ["export"; "quickdbd"]
  | ExportMysql => ["export"; "mysql"]
  | ExportXlsx => ["export"; "xlsx"]
  | GenerateGorm => ["generate"; "gorm"]
  | GenerateGraphql => ["generate"; "graphql"]
  | GenerateKt => ["generate"; "kt"]
  | GenerateLiquibase => ["generate"; "liquibase"]
  | GeneratePlantuml => ["generate"; "plantuml"]
  | GeneratePb => ["generate"; "pb"]
  | GenerateSqlalchemy => ["generate"; "sqlalchemy"]
  | DiffFlyway => ["diff"; "flyway"]
  | DiffLiquibase => ["diff"; "liquibase"]
  | DiffMd => ["diff"; "md"]
  end.

Record flag := mkFlag {
  fl_name : string;
  fl_aliases : list string;
  fl_env : string;
  fl_required : bool;
  fl_bool : bool  (* cli.BoolFlag; otherwise cli.StringFlag *)
}.

Definition str_flag name aliases env := mkFlag name aliases env false false.
Definition req_flag name aliases env := mkFlag name aliases env true false.
Definition bool_flag name aliases env := mkFlag name aliases env false true.

Definition input_flag := req_flag "input" ["i"] "OCTOPUS_INPUT".
Definition output_flag := req_flag "output" ["o"] "OCTOPUS_OUTPUT".
Definition groups_flag := str_flag "groups" ["g"] "OCTOPUS_GROUPS".

(** diff/cli.go:110-156 CliFlags, shared by the three diff commands *)
Definition diff_flags : list flag :=
  [str_flag "author" ["a"] "OCTOPUS_AUTHOR"; req_flag "from" ["f"] "OCTOPUS_FROM"; groups_flag; output_flag;
   req_flag "to" ["t"] "OCTOPUS_TO"; str_flag "uniqueNameSuffix" ["u"] "OCTOPUS_UNIQUE_NAME_SUFFIX";
   bool_flag "comments" ["c"] "OCTOPUS_COMMENTS"].

Definition command_flags (c : command) : list flag :=
  match c with
  (* octopus/cli.go:68-76. DefaultText is only shown in the help text. *)
  | Init => [str_flag "output" ["o"] "OCTOPUS_OUTPUT"]
  (* mysql/cli.go:38-71 *)
  | ImportMysql =>
      [str_flag "author" ["a"] "OCTOPUS_AUTHOR"; input_flag; output_flag;
       str_flag "excludes" ["x"] "OCTOPUS_EXCLUDES"; str_flag "version" ["v"] "OCTOPUS_VERSION"]
  (* ojson/cli.go:25-40, staruml/cli.go:28-43, xlsx/cli.go:30-45 *)
  | ImportOjson | ImportStaruml | ImportXlsx => [input_flag; output_flag]
  (* dbml/cli.go:37-58 *)
  | ExportDbml => [input_flag; output_flag; groups_flag]
  (* quickdbd/cli.go:34-49 *)
  | ExportQuickdbd => [input_flag; output_flag]
  (* mysql/cli.go:95-122 *)
  | ExportMysql =>
      [input_flag; output_flag; groups_flag;
       str_flag "uniqueNameSuffix" ["u"] "OCTOPUS_UNIQUE_NAME_SUFFIX"]
  (* xlsx/cli.go:62-82 *)
  | ExportXlsx => [input_flag; output_flag; bool_flag "useNullColumn" [] "OCTOPUS_USE_NULL_COLUMN"]
  (* gorm/cli.go:65-122 *)
  | GenerateGorm =>
      [input_flag; output_flag; bool_flag "pointerAssociation" ["a"] "OCTOPUS_POINTER_ASSOCIATION";
       str_flag "embed" ["e"] "OCTOPUS_EMBED"; groups_flag; str_flag "package" ["k"] "OCTOPUS_PACKAGE";
       str_flag "prefix" ["p"] "OCTOPUS_PREFIX"; str_flag "removePrefix" ["r"] "OCTOPUS_REMOVE_PREFIX";
       str_flag "uniqueNameSuffix" ["u"] "OCTOPUS_UNIQUE_NAME_SUFFIX"]
  (* graphql/cli.go:36-57 *)
  | GenerateGraphql => [input_flag; output_flag; str_flag "graphqlPackage" ["p"] "OCTOPUS_GRAPHQL_PACKAGE"]
  (* jpa/cli.go:45-120 *)
  | GenerateKt =>
      [input_flag; output_flag; str_flag "annotation" ["a"] "OCTOPUS_ANNOTATION"; groups_flag;
       str_flag "idEntity" ["e"] "OCTOPUS_ID_ENTITY"; str_flag "package" ["p"] "OCTOPUS_PACKAGE";
       str_flag "prefix" ["f"] "OCTOPUS_PREFIX"; str_flag "relation" ["l"] "OCTOPUS_RELATION";
       str_flag "removePrefix" ["d"] "OCTOPUS_REMOVE_PREFIX";
       str_flag "reposPackage" ["r"] "OCTOPUS_REPOS_PACKAGE";
       str_flag "uniqueNameSuffix" ["q"] "OCTOPUS_UNIQUE_NAME_SUFFIX";
       bool_flag "useUTC" ["u"] "OCTOPUS_USE_UTC"]
  (* liquibase/cli.go:33-66 *)
  | GenerateLiquibase =>
      [input_flag; output_flag; groups_flag; str_flag "uniqueNameSuffix" ["u"] "OCTOPUS_UNIQUE_NAME_SUFFIX";
       bool_flag "comments" ["c"] "OCTOPUS_COMMENTS"]
  (* plantuml/cli.go:50-65 *)
  | GeneratePlantuml => [input_flag; output_flag]
  (* protobuf/cli.go:52-107 *)
  | GeneratePb =>
      [input_flag; output_flag; str_flag "goPackage" [] "OCTOPUS_GO_PACKAGE"; groups_flag;
       str_flag "package" ["p"] "OCTOPUS_PACKAGE"; str_flag "prefix" ["f"] "OCTOPUS_PREFIX";
       str_flag "removePrefix" ["d"] "OCTOPUS_REMOVE_PREFIX";
       bool_flag "relationTagDecr" [] "OCTOPUS_RELATION_TAG_DECR";
       str_flag "relationTagStart" ["s"] "OCTOPUS_RELATION_TAG_START"]
  (* sqlalchemy/cli.go:39-84 *)
  | GenerateSqlalchemy =>
      [input_flag; output_flag; groups_flag; str_flag "prefix" ["p"] "OCTOPUS_PREFIX";
       str_flag "removePrefix" ["r"] "OCTOPUS_REMOVE_PREFIX";
       str_flag "uniqueNameSuffix" ["u"] "OCTOPUS_UNIQUE_NAME_SUFFIX";
       str_flag "useUTC" ["t"] "OCTOPUS_USE_UTC"]
  | DiffFlyway | DiffLiquibase | DiffMd => diff_flags
  end.

(** the values the user gives, by the name of the flag *)
Definition values := string -> option string.

Definition declared (c : command) (name : string) : bool :=
  existsb (fun f => String.eqb (fl_name f) name) (command_flags c).

(** urfave/cli Context.String: "" for a flag that is not declared or not given *)
Definition flag_string (c : command) (v : values) (name : string) : string :=
  if declared c name then match v name with Some x => x | None => "" end else "".

(** urfave/cli Context.Bool: strconv.ParseBool of the value, false on an error *)
Definition flag_bool (c : command) (v : values) (name : string) : bool :=
  str_in (flag_string c v name) ["1"; "t"; "T"; "TRUE"; "true"; "True"].

(** urfave/cli checkRequiredFlags *)
Definition required_given (c : command) (v : values) : bool :=
  forallb (fun f => negb (fl_required f) || match v (fl_name f) with Some _ => true | None => false end)
          (command_flags c).

(** ** The outside world *)

(** the packages used by the commands that are not part of /repo, and the orders in which Go happens to
    iterate over maps *)
Record world := mkWorld {
  w_camel : string -> string;          (* strcase.ToCamel *)
  w_lower_camel : string -> string;    (* strcase.ToLowerCamel *)
  w_snake : string -> string;          (* strcase.ToSnake *)
  w_plural : string -> string;         (* pluralize *)
  w_join : list string -> string;      (* path.Join, filepath.Join *)
  w_sort : list table -> list table;   (* sort.Sort *)
  w_sort_v1 : list v1_table -> list v1_table;
  w_sql : string -> option (list my_stmt);   (* pingcap/parser *)
  w_open_xlsx : string -> option (list (string * list (list string)));
  w_save_xlsx : list (string * list (list string)) -> string;
  w_sheet_ok : string -> bool;
  w_yaml : list lq_cset -> string;     (* yaml.Marshal of the change log *)
  w_float_ok : string -> bool;         (* strconv.ParseFloat *)
  w_ord_tables : list (nat * (table * table)) -> list (nat * (table * table));
  w_ord_columns : nat -> list (nat * (column * column)) -> list (nat * (column * column));
  w_ord_keys : list string -> list string;
  w_ord_models : nat -> list (string * list string) -> list (string * list string);
  w_ord_names : nat -> list (string * list string) -> list (string * list string)
}.

(** contents by file name; [None]: the file cannot be read *)
Definition files := string -> option string.

(** [Unknown]: the model does not say what happens *)
Inductive ending := Done | Failed | Crashed | Unknown.
Definition outcome : Type := list (string * string) * ending.

Definition failed : outcome := ([], Failed).
Definition crashed : outcome := ([], Crashed).
Definition not_modelled : outcome := ([], Unknown).

(** ** octopus/io.go:8-23 LoadSchema, from the file *)

(** [LoadNil]: it returns a schema with nil pointers for indices; [LoadUnknown]: the model does not say *)
Inductive loaded := Loaded (s : schema) | LoadFailed | LoadCrashed | LoadNil | LoadUnknown.

Definition is_null (j : json) : bool := match j with JNull => true | _ => false end.

(** an object with one member changed, and a list without its null elements, the others changed *)
Definition map_member (name : string) (f : json -> json) (j : json) : json :=
  match j with
  | JObj l => JObj (map (fun kv => let '(k, v) := kv in (k, if key_is name k then f v else v)) l)
  | _ => j
  end.
Definition drop_nulls (f : json -> json) (j : json) : json :=
  match j with JArr a => JArr (map f (filter (fun x => negb (is_null x)) a)) | _ => j end.

(** tests of a member of an object (the one decoded last counts) and of the elements of a list *)
Definition last_member (name : string) (p : json -> bool) (j : json) : bool :=
  match j with
  | JObj l => fold_left (fun b kv => let '(k, v) := kv in if key_is name k then p v else b) l false
  | _ => false
  end.
Definition some_element (p : json -> bool) (j : json) : bool :=
  match j with JArr a => existsb p a | _ => false end.

Definition same (j : json) : json := j.
Definition without_nulls (j : json) : json :=
  map_member "tables"
    (drop_nulls (fun t => map_member "indices" (drop_nulls same) (map_member "columns" (drop_nulls same) t))) j.
Definition has_null_table (j : json) : bool := last_member "tables" (some_element is_null) j.
Definition has_null_column (j : json) : bool :=
  last_member "tables" (some_element (last_member "columns" (some_element is_null))) j.
Definition has_null_index (j : json) : bool :=
  last_member "tables" (some_element (last_member "indices" (some_element is_null))) j.

(** A null element of the list of tables becomes a nil pointer, which Normalize dereferences (table.go:181-184,
    90-98). Normalize also dereferences a null element of a list of columns (table.go:185-186), unless it ends
    before at a column that is not valid (table.go:188-190): with a null and such a column the model does not say
    which comes first. A null element of a list of indices is returned as a nil pointer; what the commands do with it
    is not modelled. *)
Definition invalid_column (c : column) : bool :=
  match snd (validate true (normalize_type c)) with Some _ => true | None => false end.
Definition load_file (w : world) (fs : files) (name : string) : loaded :=
  if load_schema_accepts name then
    match fs name with
    | None => LoadFailed
    | Some text =>
        match read_text text with
        | None => LoadFailed
        | Some j =>
            match from_json (without_nulls j) with
            | None => LoadFailed
            | Some s =>
                if has_null_table j then LoadCrashed
                else if has_null_column j then
                  if existsb invalid_column (flat_map t_cols (s_tables s)) then LoadUnknown else LoadCrashed
                else if has_null_index j then LoadNil
                else Loaded (load_schema_decoded (w_sort w) s)
            end
        end
    end
  else LoadFailed.

(** the common beginning of the exporters and generators *)
Definition with_schema (w : world) (fs : files) (name : string) (k : schema -> outcome) : outcome :=
  match load_file w fs name with
  | Loaded s => k s
  | LoadFailed => failed
  | LoadCrashed => crashed
  | LoadNil | LoadUnknown => not_modelled
  end.

(** table.go:153-159 ToFile; staruml/cli.go:20-25, xlsx/cli.go:22-27 *)
Definition save_schema (w : world) (name : string) (s : schema) : outcome :=
  match to_text (w_sort w) s with
  | Some text => ([(name, text)], Done)
  | None => failed
  end.

Definition written (name text : string) : outcome := ([(name, text)], Done).

Definition with_res {A} (r : res A) (k : A -> outcome) : outcome :=
  match r with Ok a => k a | Panic => crashed end.

(** gorm/cli.go:44-54, plantuml/cli.go:28-39: the output if it has one of the extensions, else a file in
    the directory *)
Definition output_file (w : world) (extensions : list string) (output name : string) : string :=
  if str_in (to_lower (filepath_ext output)) extensions then output else w_join w [output; name].

(** ** octopus/cli.go:9-66 *)
Definition init_schema : schema :=
  mkSchema "" "" "1.0.0"
    [mkTable "user"
       [mkCol "id" "bigint" "unique id" 0 0 false true false true "" "" [] None;
        mkCol "name" "varchar" "user login name" 40 0 false false true false "" "" [] None;
        mkCol "group_id" "bigint" "group ID" 0 0 false false false false "" "" [] (Some (mkRef "group" "id" "n:1"))]
       "User table" "" "" [];
     mkTable "group"
       [mkCol "id" "bigint" "unique id" 0 0 false true false true "" "" [] None;
        mkCol "name" "varchar" "group name" 40 0 false false true false "" "" [] None]
       "Group table" "" "" []].

(** ** The actions *)

Section Actions.
Variable w : world.
Variable fs : files.
Variable c : command.
Variable v : values.

Let str := flag_string c v.
Let flg := flag_bool c v.
Let filt := get_table_filter (str "groups").
Let remove := split_char "," (str "removePrefix").

(** mysql/cli.go:21-36 *)
Definition import_mysql : outcome :=
  match fs (str "input") with
  | None => failed
  | Some text =>
      match w_sql w text with
      | None => failed
      | Some stmts =>
          with_res (import_sql (split_char "," (str "excludes")) (str "author") (str "version") stmts)
            (save_schema w (str "output"))
      end
  end.

(** ojson/cli.go:12-23; importer.go:24-37. Normalize (ojson/table.go:139-158) panics at a null table or column. *)
Definition import_ojson : outcome :=
  match fs (str "input") with
  | None => failed
  | Some text =>
      match read_text text with
      | None => failed
      | Some j =>
          match v1_from_json (without_nulls j) with
          | None => failed
          | Some s1 => if has_null_table j || has_null_column j then crashed
                       else with_res (import_v1 (w_sort_v1 w) s1) (save_schema w (str "output"))
          end
      end
  end.

(** staruml/cli.go:13-26 *)
Definition import_staruml_file : outcome :=
  match fs (str "input") with
  | None => failed
  | Some text =>
      match st_from_text (w_float_ok w) text with
      | None => failed
      | Some root => with_res (import_staruml root)
                       (fun r => match r with Some s => save_schema w (str "output") s | None => failed end)
      end
  end.

(** xlsx/cli.go:15-28. The importer reads cells through getCell, which checks the index, so it does not panic. *)
Definition import_xlsx_file : outcome :=
  match fs (str "input") with
  | None => failed
  | Some text =>
      match w_open_xlsx w text with
      | None => failed
      | Some wb => match import_xlsx (w_ord_keys w) wb with
                   | inl s => save_schema w (str "output") s
                   | inr _ => failed
                   end
      end
  end.

(** dbml/cli.go:16-35 *)
Definition export_dbml_file : outcome :=
  with_schema w fs (str "input") (fun s => written (str "output") (export_dbml filt s)).

(** quickdbd/cli.go:15-32 *)
Definition export_quickdbd_file : outcome :=
  with_schema w fs (str "input") (fun s => written (str "output") (qdbd_text s)).

(** mysql/cli.go:73-93 *)
Definition export_mysql_file : outcome :=
  with_schema w fs (str "input") (fun s => written (str "output") (my_export filt (str "uniqueNameSuffix") s)).

(** xlsx/cli.go:47-60 *)
Definition export_xlsx_file : outcome :=
  with_schema w fs (str "input") (fun s =>
    match export_xlsx (w_sheet_ok w) (flg "useNullColumn") s with
    | Some wb => written (str "output") (w_save_xlsx w wb)
    | None => failed
    end).

(** gorm/cli.go:25-63 *)
Definition generate_gorm : outcome :=
  with_schema w fs (str "input") (fun s =>
    with_res (new_prefix_mapper (str "prefix")) (fun pm =>
      let o := mkGormOpt (str "embed") filt (str "package") (flg "pointerAssociation") pm remove
                 (str "uniqueNameSuffix") in
      written (output_file w [".go"] (str "output") "output.go")
        (fst (gorm_generate (w_camel w) (w_snake w) (w_ord_models w) (w_ord_names w) default_models o s)))).

(** graphql/cli.go:19-34; generator.go:180-182: the name of the file *)
Definition generate_graphql : outcome :=
  with_schema w fs (str "input") (fun s =>
    with_res (new_prefix_mapper (str "prefix")) (fun pm =>
      written (w_join w [str "output"; s_name s ++ "-" ++ s_version s ++ ".graphqls"])
        (gql_text (w_camel w) (w_lower_camel w) (w_plural w) filt remove pm s))).

(** jpa/cli.go:25-43 *)
Definition generate_kt : outcome :=
  with_schema w fs (str "input") (fun s =>
    with_res (new_anno_mapper (str "annotation")) (fun am =>
    with_res (new_prefix_mapper (str "prefix")) (fun pm =>
      let o := mkKtOpt am pm filt (str "idEntity") (str "package") (str "relation") remove
                 (str "reposPackage") (str "uniqueNameSuffix") in
      let '(ws, e) := kt_generate (w_camel w) (w_lower_camel w) (w_snake w) (w_join w) o s (str "output") in
      (ws, match e with KtDone => Done | KtPanic => Crashed | KtFatal => Failed end)))).

(** liquibase/cli.go:16-31 *)
Definition generate_liquibase : outcome :=
  with_schema w fs (str "input") (fun s =>
    match lq_generate (w_float_ok w) (mkLqOption filt "" (str "uniqueNameSuffix") (flg "comments")) s with
    | Some css => written (str "output") (w_yaml w css)
    | None => failed
    end).

(** plantuml/cli.go:17-48 *)
Definition generate_plantuml : outcome :=
  with_schema w fs (str "input") (fun s =>
    written (output_file w [".wsd"; ".pu"; ".puml"; ".plantuml"; ".iuml"] (str "output") "output.plantuml")
      (puml_text s)).

(** protobuf/cli.go:24-50 *)
Definition generate_pb : outcome :=
  with_schema w fs (str "input") (fun s =>
    with_res (pb_cli_option (str "prefix") (str "groups") (str "removePrefix") (str "package") (str "goPackage")
                (str "relationTagStart") (flg "relationTagDecr")) (fun o =>
    with_res (pb_generate (w_camel w) (w_lower_camel w) o s) (written (str "output")))).

(** sqlalchemy/cli.go:20-37 *)
Definition generate_sqlalchemy : outcome :=
  with_schema w fs (str "input") (fun s =>
    with_res (new_prefix_mapper (str "prefix")) (fun pm =>
      (sa_generate (w_camel w) (w_snake w)
         (mkSaOpt pm filt remove (str "uniqueNameSuffix") (flg "useUTC")) s (str "output"), Done))).

(** diff/cli.go:21-31 loadSchema, 62-69 *)
Definition with_schemas (k : schema -> schema -> outcome) : outcome :=
  with_schema w fs (str "from") (fun a => with_schema w fs (str "to") (k a)).

(** diff/cli.go:40-47, 89-96 *)
Let diff_opt := mkDiffOption filt (str "author") (str "uniqueNameSuffix") (flg "comments").

(** diff/cli.go:33-59 *)
Definition diff_flyway : outcome :=
  with_schemas (fun a b =>
    match get_diff (w_ord_tables w) (w_ord_columns w) diff_opt a b with
    | Some css => written (str "output") (flyway_write (str "uniqueNameSuffix") css)
    | None => failed
    end).

(** diff/cli.go:61-80. The suffix is not handed over. *)
Definition diff_liquibase : outcome :=
  with_schemas (fun a b =>
    match lq_diff (w_float_ok w) (w_ord_tables w) (w_ord_columns w) (mkLqOption filt (str "author") "" (flg "comments")) a b with
    | Some css => written (str "output") (w_yaml w css)
    | None => failed
    end).

(** diff/cli.go:82-108 *)
Definition diff_md : outcome :=
  with_schemas (fun a b =>
    match get_diff (w_ord_tables w) (w_ord_columns w) diff_opt a b with
    | Some css => written (str "output") (md_write (w_ord_keys w) a b css)
    | None => failed
    end).

(** main.go:30-158: the action of a command *)
Definition action : outcome :=
  match c with
  | Init => save_schema w (str "output") init_schema
  | ImportMysql => import_mysql
  | ImportOjson => import_ojson
  | ImportStaruml => import_staruml_file
  | ImportXlsx => import_xlsx_file
  | ExportDbml => export_dbml_file
  | ExportQuickdbd => export_quickdbd_file
  | ExportMysql => export_mysql_file
  | ExportXlsx => export_xlsx_file
  | GenerateGorm => generate_gorm
  | GenerateGraphql => generate_graphql
  | GenerateKt => generate_kt
  | GenerateLiquibase => generate_liquibase
  | GeneratePlantuml => generate_plantuml
  | GeneratePb => generate_pb
  | GenerateSqlalchemy => generate_sqlalchemy
  | DiffFlyway => diff_flyway
  | DiffLiquibase => diff_liquibase
  | DiffMd => diff_md
  end.
End Actions.

(** urfave/cli Command.Run: the required flags are checked first *)
Definition run (w : world) (fs : files) (c : command) (v : values) : outcome :=
  if required_given c v then action w fs c v else failed.
