(** Model of /repo/format/jpa: kotlin.go, kotlin-gen.go, and of ToLowerCamel in util/string.go and
    MkdirPackage in util/io.go. The name functions of the package strcase and path.Join are parameters. *)
From Coq Require Import String Ascii List NArith Bool.
From Verif.Model Require Import GoString Util Octopus Common.
Import ListNotations.
Local Open Scope string_scope.

(** ** kotlin.go *)

(** kotlin.go:19-26 *)
Record kt_field := mkKtField {
  kf_col : column;
  kf_name : string;
  kf_override : bool;
  kf_type : string;
  kf_imports : list string;
  kf_default : string
}.

(** kotlin.go:10-17; Annotations is never read *)
Record kt_class := mkKtClass {
  kc_table : table;
  kc_name : string;
  kc_fields : list kt_field;
  kc_pk : list kt_field;
  kc_unique : list kt_field
}.

(** kotlin-gen.go:17-27 *)
Record kt_opt := mkKtOpt {
  ko_anno : anno_mapper;
  ko_prefix : prefix_mapper;
  ko_filter : option (table -> bool);
  ko_identity : string;
  ko_package : string;
  ko_relation : string;
  ko_remove : list string;
  ko_repos : string;
  ko_suffix : string
}.

(** kotlin.go:77-158: the type, the package to import ("" if none), the value if the column is not null *)
Definition kt_type_of (ty : string) : string * string * string :=
  let t := to_lower ty in
  if str_in t ["char"; "varchar"; "text8"; "text16"; "text24"; "text32"] then ("String", "", """""")
  else if String.eqb t "boolean" then ("Boolean", "", "false")
  else if str_in t ["int8"; "int16"; "int24"; "int32"] then ("Int", "", "0")
  else if String.eqb t "int64" then ("Long", "", "0L")
  else if String.eqb t "decimal" then ("BigDecimal", "java.math.BigDecimal", "BigDecimal.ZERO")
  else if String.eqb t "float" then ("Float", "", "0.0F")
  else if String.eqb t "double" then ("Double", "", "0.0")
  else if String.eqb t "datetime" then ("Timestamp", "java.sql.Timestamp", "Timestamp(System.currentTimeMillis())")
  else if String.eqb t "date" then ("LocalDate", "java.time.LocalDate", "LocalDate.now()")
  else if String.eqb t "time" then ("LocalTime", "java.time.LocalTime", "LocalTime.now()")
  else if str_in t ["blob8"; "blob16"; "blob24"; "blob32"] then ("Blob", "java.sql.Blob", "")
  else ("Any", "", "").

(** how generation ends: with all files written, with an index out of range, or in log.Fatalf *)
Inductive kt_end := KtDone | KtPanic | KtFatal.

Section Names.
Variables to_camel to_lower_camel to_snake : string -> string.
(** path.Join *)
Variable path_join : list string -> string.

(** kotlin.go:70-176 NewKotlinField; util/string.go:87-91 *)
Definition new_kt_field (c : column) : kt_field :=
  let '(ty, imp, def) := kt_type_of (c_type c) in
  let name := to_lower_camel (c_name c) in
  mkKtField c name (negb (String.eqb (c_name c) (to_snake name)))
    (if c_notnull c then ty else ty ++ "?")
    (ss_slice (if String.eqb imp "" then ss_new [] else ss_add (ss_new []) imp))
    (if c_notnull c then def else "").

(** kotlin.go:32-43 *)
Definition kt_class_name (o : kt_opt) (t : table) : string :=
  if String.eqb (t_class t) "" then
    get_prefix (ko_prefix o) (t_group t) ++ to_camel (fold_left (fun n p => trim_prefix p n) (ko_remove o) (t_name t))
  else t_class t.

(** kotlin.go:28-68 NewKotlinClass *)
Definition new_kt_class (o : kt_opt) (t : table) : kt_class :=
  let fields := map new_kt_field (t_cols t) in
  mkKtClass t (kt_class_name o t) fields (filter (fun f => c_pk (kf_col f)) fields)
    (filter (fun f => c_uq (kf_col f)) fields).

(** kotlin-gen.go:35-54 NewKtGenerator *)
Definition kt_classes (o : kt_opt) (s : schema) : list kt_class :=
  map (new_kt_class o) (filter (passes (ko_filter o)) (s_tables s)).

(** ** kotlin-gen.go *)

(** kotlin-gen.go:283-290 getClassNameByTableName *)
Fixpoint class_of_table (ks : list kt_class) (name : string) : string :=
  match ks with
  | [] => ""
  | k :: ks' => if String.eqb (t_name (kc_table k)) name then kc_name k else class_of_table ks' name
  end.

Definition kt_quote (s : string) : string := quote s """".

(** kotlin-gen.go:72-84; [None]: log.Fatalf *)
Definition relation_annos (o : kt_opt) (ks : list kt_class) (c : column) : option (list string) :=
  if String.eqb (ko_relation o) "VRelation" then
    match c_ref c with
    | None => Some []
    | Some r =>
        let target := class_of_table ks (ref_table r) in
        if String.eqb target "" then None
        else Some ["@VRelation(cls = " ++ kt_quote target ++ ", field = " ++ kt_quote (to_lower_camel (ref_column r)) ++ ")"]
    end
  else Some [].

Definition is_audit_field (name : string) (f : kt_field) : bool :=
  String.eqb (c_type (kf_col f)) "datetime" && String.eqb (kf_name f) name.

(** kotlin-gen.go:86-107 *)
Definition column_attrs (f : kt_field) : list string :=
  let c := kf_col f in
  let name := "name = " ++ kt_quote (c_name c) in
  let len := "length = " ++ itoa (c_size c) in
  let precision := "precision = " ++ itoa (c_size c) in
  let scale := "scale = " ++ itoa (c_scale c) in
  ((if kf_override f then [name] else [])
   ++ (if c_notnull c then ["nullable = false"] else [])
   ++ (if is_col_type_string (c_type c) && N.ltb 0 (c_size c) then [len] else [])
   ++ (if is_col_type_decimal (c_type c) then
         (if N.ltb 0 (c_size c) then [precision] else []) ++ (if N.ltb 0 (c_scale c) then [scale] else [])
       else [])
   ++ (if is_audit_field "createdAt" f then ["updatable = false"] else []))%list.

(** kotlin-gen.go:56-116 getFieldAnnotations *)
Definition field_annos (o : kt_opt) (ks : list kt_class) (f : kt_field) : option (list string) :=
  let c := kf_col f in
  match relation_annos o ks c with
  | None => None
  | Some rel =>
      let column := "@Column(" ++ join ", " (column_attrs f) ++ ")" in
      Some ((if c_pk c then ["@Id"] else [])
            ++ (if c_autoinc c then ["@GeneratedValue(strategy = GenerationType.AUTO)"] else [])
            ++ (if is_col_type_clob (c_type c) then ["@Lob"] else [])
            ++ rel
            ++ (if is_audit_field "createdAt" f then ["@CreationTimestamp"] else [])
            ++ (if is_audit_field "updatedAt" f then ["@UpdateTimestamp"] else [])
            ++ (match column_attrs f with [] => [] | _ => [column] end))%list
  end.

Definition kt_indent : string := "        ".

(** kotlin-gen.go:214-219, 224-228: the class has an id field of its interface *)
Definition has_identity (o : kt_opt) (k : kt_class) : option kt_field :=
  if String.eqb (ko_identity o) "" then None
  else match kc_pk k with
       | [f] => if String.eqb (kf_name f) "id" then Some f else None
       | _ => None
       end.

(** kotlin-gen.go:171-185: the lines for a field; [last]: it is the last one, [idf]: it is the id field.
    Pointers to fields are compared there; here these are the two flags. *)
Definition field_lines (last idf : bool) (annos : list string) (f : kt_field) : list string :=
  let comma := if last then "" else "," in
  let line :=
    if c_notnull (kf_col f) then
      if idf then kt_indent ++ "override var " ++ kf_name f ++ ": " ++ kf_type f ++ " = " ++ kf_default f ++ ","
      else kt_indent ++ "var " ++ kf_name f ++ ": " ++ kf_type f ++ " = " ++ kf_default f ++ comma
    else kt_indent ++ "var " ++ kf_name f ++ ": " ++ kf_type f ++ comma in
  let indented := fun a : string => kt_indent ++ a in
  (map indented annos ++ [line; ""])%list.

(** the lines for all fields; [ident]: the class has an id field, the only field that is a primary key *)
Fixpoint fields_lines (o : kt_opt) (ks : list kt_class) (ident : bool) (fs : list kt_field) : option (list string) :=
  match fs with
  | [] => Some []
  | f :: fs' =>
      match field_annos o ks f, fields_lines o ks ident fs' with
      | Some annos, Some rest =>
          Some (field_lines (match fs' with [] => true | _ => false end) (ident && c_pk (kf_col f)) annos f ++ rest)%list
      | _, _ => None
      end
  end.

(** kotlin-gen.go:194-196 *)
Fixpoint id_lines (fs : list kt_field) : list string :=
  match fs with
  | [] => []
  | f :: fs' =>
      (kt_indent ++ "var " ++ kf_name f ++ ": " ++ kf_type f ++ " = " ++ kf_default f
       ++ match fs' with [] => "" | _ => "," end) :: id_lines fs'
  end.

(** kotlin-gen.go:207-212, 391-394 *)
Definition composite (k : kt_class) : bool := Nat.ltb 1 (length (kc_pk k)).
Definition id_class_name (k : kt_class) : string := kc_name k ++ "PK".

(** kotlin-gen.go:160-166, 230-234 *)
Definition table_lines (o : kt_opt) (k : kt_class) : list string :=
  match kc_unique k with
  | [] => let line := "@Table(name = " ++ kt_quote (t_name (kc_table k)) ++ ")" in [line]
  | us =>
      let head := "@Table(name=" ++ kt_quote (t_name (kc_table k)) ++ ", uniqueConstraints = [" in
      let body := "    UniqueConstraint(name = " ++ kt_quote (t_name (kc_table k) ++ ko_suffix o) ++ ", columnNames = ["
                  ++ join ", " (map (fun f => kt_quote (kf_name f)) us) ++ "])" in
      [head; body; "])"]
  end.

(** kotlin-gen.go:236-262: what goes into the two import sets *)
Definition kt_imports (k : kt_class) : sset :=
  fold_left (fun s f =>
    let s := ss_add_all s (filter (fun i => negb (has_prefix "java." i)) (kf_imports f)) in
    let s := if is_audit_field "createdAt" f then ss_add s "org.hibernate.annotations.CreationTimestamp" else s in
    if is_audit_field "updatedAt" f then ss_add s "org.hibernate.annotations.UpdateTimestamp" else s)
    (kc_fields k) (ss_new []).
Definition java_imports (k : kt_class) : sset :=
  let s := ss_add (ss_new []) "javax.persistence.*" in
  let s := if composite k then ss_add s "java.io.Serializable" else s in
  fold_left (fun s f => ss_add_all s (filter (has_prefix "java.") (kf_imports f))) (kc_fields k) s.

Definition kt_text (ls : list string) : string := join (String "010" "") ls.
Definition concat_all (l : list string) : string := join "" l.

(** kotlin-gen.go:135-281 GenerateEntityClass; the template with its white space trimmed, as lines *)
Definition entity_text (o : kt_opt) (ks : list kt_class) (k : kt_class) : option string :=
  let ident := has_identity o k in
  match fields_lines o ks (match ident with Some _ => true | None => false end) (kc_fields k) with
  | None => None
  | Some fields =>
      let package := "package " ++ ko_package o in
      let id_anno := "@IdClass(" ++ id_class_name k ++ "::class)" in
      let head := "data class " ++ kc_name k ++ "(" in
      let close := match ident with
                   | Some f => "): " ++ ko_identity o ++ "<" ++ kf_type f ++ ">"
                   | None => ")"
                   end in
      let import := fun i : string => "import " ++ i in
      let id_head := "data class " ++ id_class_name k ++ "(" in
      Some (kt_text (
        [package; ""]
        ++ map import (ss_slice (kt_imports k)) ++ [""]
        ++ map import (ss_slice (java_imports k)) ++ [""]
        ++ [concat_all (get_annotations (ko_anno o) (t_group (kc_table k))); "@Entity"]
        ++ table_lines o k
        ++ (if composite k then [id_anno] else [])
        ++ [head] ++ fields ++ [close]
        ++ (if composite k then [id_head] ++ id_lines (kc_pk k) ++ ["): Serializable"] else [])
        ++ [""])%list)
  end.

(** util/io.go:12-21 MkdirPackage *)
Definition package_dir (base package : string) : string :=
  if String.eqb package "" then "" else path_join (base :: split_char "." package).

(** kotlin-gen.go:306-329 generateEntities; the files written, with their paths *)
Fixpoint kt_entities (o : kt_opt) (all : list kt_class) (dir : string) (ks : list kt_class)
  : list (string * string) * kt_end :=
  match ks with
  | [] => ([], KtDone)
  | k :: ks' =>
      match entity_text o all k with
      | None => ([], KtFatal)
      | Some text =>
          let path := path_join [dir; kc_name k ++ ".kt"] in
          let '(rest, e) := kt_entities o all dir ks' in ((path, text) :: rest, e)
      end
  end.

(** kotlin-gen.go:357-411 generateRepository; [None]: class.PKFields[0] is out of range *)
Definition repository_text (o : kt_opt) (k : kt_class) : option string :=
  let id := if composite k then Some (id_class_name k) else
            match kc_pk k with [] => None | f :: _ => Some (kf_type f) end in
  match id with
  | None => None
  | Some id =>
      let package := "package " ++ ko_repos o in
      let imp := "import " ++ ko_package o ++ ".*" in
      let decl := "interface " ++ kc_name k ++ "Repository : JpaRepository<" ++ kc_name k ++ ", " ++ id ++ ">" in
      Some (kt_text [package; ""; imp; "import org.springframework.data.jpa.repository.JpaRepository";
                     "import org.springframework.stereotype.Repository"; ""; "@Repository"; decl; ""])
  end.

(** kotlin-gen.go:332-355 generateRepositories *)
Fixpoint kt_repositories (o : kt_opt) (dir : string) (ks : list kt_class) : list (string * string) * kt_end :=
  match ks with
  | [] => ([], KtDone)
  | k :: ks' =>
      match repository_text o k with
      | None => ([], KtPanic)
      | Some text =>
          let path := path_join [dir; kc_name k ++ "Repository.kt"] in
          let '(rest, e) := kt_repositories o dir ks' in ((path, text) :: rest, e)
      end
  end.

(** kotlin-gen.go:292-304 Generate: the files written, in order, and how it ends. No file operation fails. *)
Definition kt_generate (o : kt_opt) (s : schema) (output : string) : list (string * string) * kt_end :=
  let ks := kt_classes o s in
  let '(entities, e) := kt_entities o ks (package_dir output (ko_package o)) ks in
  match e with
  | KtDone =>
      if String.eqb (ko_repos o) "" then (entities, KtDone)
      else let '(repos, e) := kt_repositories o (package_dir output (ko_repos o)) ks in ((entities ++ repos)%list, e)
  | _ => (entities, e)
  end.
End Names.
