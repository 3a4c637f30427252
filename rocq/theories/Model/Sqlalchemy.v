(** Model of /repo/format/sqlalchemy: sqlalchemy.go, generator.go, and of util/python.go and ToLowerSnake
    in util/string.go. The name functions of the package strcase are parameters. *)
From Coq Require Import String Ascii List NArith Bool.
From Verif.Model Require Import GoString Util Octopus Common.
Import ListNotations.
Local Open Scope string_scope.

(** util/python.go:3-50 pythonReservedWords, IsPythonReservedWord *)
Definition python_words : list string :=
  ["and"; "as"; "assert"; "break"; "class"; "continue"; "def"; "del"; "elif"; "else"; "except"; "False";
   "finally"; "for"; "from"; "global"; "if"; "import"; "in"; "is"; "lambda"; "None"; "nonlocal"; "not"; "or";
   "pass"; "raise"; "return"; "True"; "try"; "while"; "with"; "yield"].
Definition python_reserved (s : string) : bool := str_in s python_words.

(** ** sqlalchemy.go *)

(** sqlalchemy.go:18-24 *)
Record sa_field := mkSaField {
  sf_col : column;
  sf_name : string;
  sf_override : bool;
  sf_type : string;
  sf_imports : list string
}.

(** sqlalchemy.go:10-16; PKFields is never read *)
Record sa_class := mkSaClass {
  sc_table : table;
  sc_name : string;
  sc_fields : list sa_field;
  sc_unique : list sa_field
}.

(** sqlalchemy.go:68-124 *)
Definition sa_type_of (c : column) : string :=
  let t := to_lower (c_type c) in
  if str_in t ["char"; "varchar"; "text8"; "text16"; "text24"; "text32"] then "String"
  else if String.eqb t "boolean" then "Boolean"
  else if str_in t ["int8"; "int16"; "int24"; "int32"] then "Integer"
  else if String.eqb t "int64" then "BigInteger"
  else if String.eqb t "decimal" then "Numeric"
  else if String.eqb t "float" then "Float"
  else if String.eqb t "double" then "Float"
  else if String.eqb t "datetime" then "DateTime"
  else if String.eqb t "date" then "Date"
  else if String.eqb t "time" then "Time"
  else if str_in t ["blob8"; "blob16"; "blob24"; "blob32"] then "LargeBinary"
  else if String.eqb t "bit" && N.eqb (c_size c) 1 then "Boolean"
  else "".

(** generator.go:15-22 *)
Record sa_opt := mkSaOpt {
  so_prefix : prefix_mapper;
  so_filter : option (table -> bool);
  so_remove : list string;
  so_suffix : string;
  so_utc : bool
}.

Section Names.
Variables to_camel to_snake : string -> string.

(** sqlalchemy.go:67-146 NewSaField; util/string.go:103-106 *)
Definition new_sa_field (c : column) : sa_field :=
  let ty := sa_type_of c in
  let n := to_snake (to_lower (c_name c)) in
  mkSaField c (if python_reserved n then n ++ "_" else n)
    (python_reserved n || negb (String.eqb (c_name c) n)) ty
    (ss_slice (if String.eqb ty "" then ss_new [] else ss_add (ss_new []) ty)).

(** sqlalchemy.go:30-41 *)
Definition sa_class_name (remove : list string) (pm : prefix_mapper) (t : table) : string :=
  if String.eqb (t_class t) "" then
    get_prefix pm (t_group t) ++ to_camel (fold_left (fun n p => trim_prefix p n) remove (t_name t))
  else t_class t.

(** sqlalchemy.go:26-65 NewSaClass *)
Definition new_sa_class (o : sa_opt) (t : table) : sa_class :=
  let fields := map new_sa_field (t_cols t) in
  mkSaClass t (sa_class_name (so_remove o) (so_prefix o) t) fields (filter (fun f => c_uq (sf_col f)) fields).

(** ** generator.go *)

(** util/string.go Quote, with the mark ' *)
Definition py_quote (s : string) : string := "'" ++ s ++ "'".

(** generator.go:119-126 *)
Definition number_args (c : column) : list string :=
  let precision := "precision=" ++ itoa (c_size c) in
  let scale := "scale=" ++ itoa (c_scale c) in
  ((if N.ltb 0 (c_size c) then [precision] else []) ++ (if N.ltb 0 (c_scale c) then [scale] else []))%list.

(** generator.go:115-154: the type of the column and what goes with it *)
Definition type_attrs (utc : bool) (f : sa_field) : list string :=
  let c := sf_col f in
  let t := to_lower (c_type c) in
  let now := if utc then "datetime.utcnow" else "datetime.now" in
  if (String.eqb t "varchar" || String.eqb t "char") && N.ltb 0 (c_size c)
  then [sf_type f ++ "(" ++ itoa (c_size c) ++ ")"]
  else if String.eqb t "double" || String.eqb t "float" || String.eqb t "decimal"
  then [sf_type f ++ "(" ++ join ", " (number_args c) ++ ")"]
  else if String.eqb t "datetime" then
    if String.eqb (c_name c) "created_at" then [sf_type f; "default=" ++ now]
    else if String.eqb (c_name c) "updated_at" then [sf_type f; "default=" ++ now; "onupdate=" ++ now]
    else if utc then ["TZDateTime"] else [sf_type f]
  else [sf_type f].

(** generator.go:107-170 *)
Definition sa_attrs (utc : bool) (f : sa_field) : list string :=
  let c := sf_col f in
  ((if sf_override f then [py_quote (c_name c)] else [])
   ++ type_attrs utc f
   ++ (if c_pk c then ["primary_key=True"] else [])
   ++ (if c_uq c then ["unique=True"] else [])
   ++ (if c_autoinc c then ["autoincrement=True"] else [])
   ++ (if c_notnull c && negb (c_autoinc c) then ["nullable=False"] else []))%list.

(** generator.go:143-147: TZDateTime is used *)
Definition is_audit (n : string) : bool := String.eqb n "created_at" || String.eqb n "updated_at".
Definition uses_tz (utc : bool) (f : sa_field) : bool :=
  utc && String.eqb (to_lower (c_type (sf_col f))) "datetime" && negb (is_audit (c_name (sf_col f))).

(** generator.go:146, 174-177: what a field adds to saImportSet *)
Definition field_sa (utc : bool) (f : sa_field) : list string :=
  ((if uses_tz utc f then ["TypeDecorator"] else []) ++ sf_imports f)%list.
(** generator.go:147, 152: what a field adds to importSet *)
Definition field_imports (utc : bool) (f : sa_field) : list string :=
  ((if uses_tz utc f then ["from datetime import timezone"] else [])
   ++ (if String.eqb (to_lower (c_type (sf_col f))) "datetime" then ["from datetime import datetime"] else []))%list.

Definition sa_indent : string := "    ".

(** generator.go:97-99 *)
Definition has_constraint (k : sa_class) : bool := Nat.ltb 1 (length (sc_unique k)).
(** generator.go:80-177: the lines of a class *)
Definition unique_line (o : sa_opt) (k : sa_class) : string :=
  sa_indent ++ "UniqueConstraint(" ++ join ", " (map (fun f => py_quote (sf_name f)) (sc_unique k))
  ++ ", name='" ++ t_name (sc_table k) ++ so_suffix o ++ "')".
Definition column_line (utc : bool) (f : sa_field) : string :=
  sa_indent ++ sf_name f ++ " = Column(" ++ join ", " (sa_attrs utc f) ++ ")".
Definition class_lines (o : sa_opt) (k : sa_class) : list string :=
  let head := "class " ++ sc_name k ++ "(Base):" in
  let name := sa_indent ++ "__tablename__ = '" ++ t_name (sc_table k) ++ "'" in
  (["" ; ""; head; name] ++ (if has_constraint k then [unique_line o k] else []) ++ [""]
   ++ map (column_line (so_utc o)) (sc_fields k))%list.
(** generator.go:99, 146-152, 174-177: what a class adds to the two sets *)
Definition class_sa (o : sa_opt) (k : sa_class) : list string :=
  ((if has_constraint k then ["UniqueConstraint"] else []) ++ flat_map (field_sa (so_utc o)) (sc_fields k))%list.
Definition class_imports (o : sa_opt) (k : sa_class) : list string :=
  flat_map (field_imports (so_utc o)) (sc_fields k).

(** generator.go:242-259 getHeaderLines *)
Definition header_lines (imports sa : list string) : list string :=
  let names := "from sqlalchemy import " ++ join ", " sa in
  ((match imports with [] => [] | _ => imports ++ [""] end)
   ++ [names; "from sqlalchemy.ext.declarative import declarative_base";
       "from sqlalchemy_repr import RepresentableBase"; "";
       "Base = declarative_base(cls=RepresentableBase)"])%list.

(** generator.go:221-240 getTZDateTimeLines *)
Definition tz_lines : list string :=
  [""; "";
   "class TZDateTime(TypeDecorator):";
   "    impl = DateTime";
   "";
   "    def process_bind_param(self, value, dialect):";
   "        if value is not None:";
   "            if not value.tzinfo:";
   "                raise TypeError(""tzinfo is required"")";
   "            value = value.astimezone(timezone.utc).replace(tzinfo=None)";
   "        return value";
   "";
   "    def process_result_value(self, value, dialect):";
   "        if value is not None:";
   "            value = value.replace(tzinfo=timezone.utc)";
   "        return value"].

(** util/io.go:39-45 WriteLinesToFile, the content of the file *)
Definition lines_text (ls : list string) : string := join (String "010" "") ls.

(** generator.go:57-64 *)
Definition sa_classes (o : sa_opt) (s : schema) : list sa_class :=
  map (new_sa_class o) (filter (passes (so_filter o)) (s_tables s)).

(** generator.go:76-197, one file per table; [sa], [im]: the two sets as the previous table left them.
    The result: the names of the files within the output directory, and their contents, in the order
    of writing. *)
Fixpoint sa_each (o : sa_opt) (sa im : sset) (ks : list sa_class) : list (string * string) :=
  match ks with
  | [] => []
  | k :: ks' =>
      let sa' := ss_add_all sa (class_sa o k) in
      let im' := ss_add_all im (class_imports o k) in
      (t_name (sc_table k) ++ ".py",
       lines_text (header_lines (ss_slice im') (ss_slice sa') ++ class_lines o k ++ [""])%list)
      :: sa_each o (ss_clear sa') (ss_clear im') ks'
  end.

(** generator.go:67-71 *)
Definition first_sa : sset := ss_add (ss_new []) "Column".

Definition sa_separate (o : sa_opt) (s : schema) : list (string * string) :=
  sa_each o first_sa (ss_new []) (sa_classes o s).

(** generator.go:179-180, 200-211, everything in one file *)
Definition sa_single (o : sa_opt) (s : schema) : string :=
  let ks := sa_classes o s in
  let sa := ss_add_all first_sa (flat_map (class_sa o) ks) in
  let im := ss_add_all (ss_new []) (flat_map (class_imports o) ks) in
  let tz := existsb (fun k => existsb (uses_tz (so_utc o)) (sc_fields k)) ks in
  lines_text (header_lines (ss_slice im) (ss_slice sa) ++ (if tz then tz_lines else [])
              ++ flat_map (class_lines o) ks ++ [""])%list.

(** generator.go:37-214 Generate: the files written, each with its path; the path of a file in the output
    directory is written with "/" and not cleaned up (line 187). No file operation fails. *)
Definition sa_generate (o : sa_opt) (s : schema) (output : string) : list (string * string) :=
  if String.eqb (to_lower (filepath_ext output)) ".py" then [(output, sa_single o s)]
  else map (fun f => (output ++ "/" ++ fst f, snd f)) (sa_separate o s).
End Names.
