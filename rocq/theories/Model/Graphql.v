(** Model of /repo/format/graphql/generator.go. The name functions of the packages strcase and
    pluralize are parameters. *)
From Coq Require Import String Ascii List NArith Bool.
From Verif.Model Require Import GoString Octopus Common.
Import ListNotations.
Local Open Scope string_scope.

(** generator.go:23-27 *)
Record gfield := mkGField { gf_name : string; gf_type : string }.
(** generator.go:16-21; PKFields is never set *)
Record gclass := mkGClass { gc_name : string; gc_fields : list gfield }.

(** generator.go:80-119, the type of a field *)
Definition gql_base (typ : string) : string :=
  let t := to_lower typ in
  if str_in t ["datetime"; "date"; "time"; "char"; "varchar"] then "String"
  else if String.eqb t "boolean" then "Boolean"
  else if str_in t ["int8"; "int16"; "int24"; "int32"; "int64"] then "Int"
  else if str_in t ["decimal"; "float"; "double"] then "Float"
  else "String".
Definition gql_type (c : column) : string :=
  if c_notnull c then gql_base (c_type c) ++ "!" else gql_base (c_type c).

Section Names.
Variables to_camel to_lower_camel plural : string -> string.

(** generator.go:44-56 *)
Definition gql_class_name (remove : list string) (pm : prefix_mapper) (t : table) : string :=
  if String.eqb (t_class t) "" then
    get_prefix pm (t_group t) ++ to_camel (fold_left (fun n p => trim_prefix p n) remove (t_name t))
  else t_class t.

(** generator.go:40-78 NewClass *)
Definition gql_class (remove : list string) (pm : prefix_mapper) (t : table) : gclass :=
  let single := Nat.eqb (length (filter c_pk (t_cols t))) 1 in
  mkGClass (gql_class_name remove pm t)
    (map (fun c => mkGField (to_lower_camel (c_name c))
                            (if single && c_pk c then "ID!" else gql_type c)) (t_cols t)).

(** generator.go:155-165, the tables that are generated *)
Definition gql_classes (f : option (table -> bool)) remove pm (s : schema) : list gclass :=
  map (gql_class remove pm) (filter (passes f) (s_tables s)).

(** generator.go:164-165 *)
Definition gql_query_line (c : gclass) : string :=
  "  " ++ plural (to_lower_camel (gc_name c)) ++ ": [" ++ gc_name c ++ "]".
(** generator.go:170-178 *)
Definition gql_field_line (x : gfield) : string := "  " ++ gf_name x ++ ": " ++ gf_type x.
Definition gql_class_lines (c : gclass) : list string :=
  let head := "type " ++ gc_name c ++ " {" in
  (head :: map gql_field_line (gc_fields c) ++ ["}"; ""])%list.

(** generator.go:128-184 Generate, the text written *)
Definition gql_text (f : option (table -> bool)) remove pm (s : schema) : string :=
  let nl := String "010" "" in
  let cs := gql_classes f remove pm s in
  let head := "schema {" ++ nl ++ "    query: Query" ++ nl ++ "}" ++ nl in
  join nl (head :: "type Query {" :: map gql_query_line cs ++ ["}"; ""] ++ flat_map gql_class_lines cs)%list.
End Names.
