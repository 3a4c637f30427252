(** Model of /repo/format/dbml/exporter.go *)
From Coq Require Import String Ascii List NArith Bool.
From Verif.Model Require Import GoString Util Octopus.
Import ListNotations.
Local Open Scope string_scope.

(** exporter.go:103-114 getRelationshipType *)
Definition dbml_rel (r : reference) : string :=
  if String.eqb (ref_rel r) "n:1" then ">"
  else if String.eqb (ref_rel r) "1:n" then "<"
  else if String.eqb (ref_rel r) "1:1" then "-"
  else ">".

(** exporter.go:77-84 *)
Definition dbml_type (c : column) : string :=
  if N.ltb 0 (c_size c) then
    if N.ltb 0 (c_scale c)
    then c_type c ++ "(" ++ itoa (c_size c) ++ "," ++ itoa (c_scale c) ++ ")"
    else c_type c ++ "(" ++ itoa (c_size c) ++ ")"
  else c_type c.

(** exporter.go:53-59 *)
Definition dbml_default (c : column) : list string :=
  if String.eqb (c_default c) "" then []
  else ["default: " ++ (if is_string_type (c_type c) then "'" ++ c_default c ++ "'" else c_default c)].

(** exporter.go:60-66 and 66-72; [defined] holds the keys of definedTables *)
Definition dbml_inline (defined : list string) (c : column) : list string :=
  match c_ref c with
  | Some r => if str_in (ref_table r) defined
              then ["ref: " ++ dbml_rel r ++ " " ++ ref_table r ++ "." ++ ref_column r] else []
  | None => []
  end.
Definition dbml_deferred (defined : list string) (t : table) (c : column) : list string :=
  match c_ref c with
  | Some r => if str_in (ref_table r) defined then []
              else ["Ref: " ++ t_name t ++ "." ++ c_name c ++ " " ++ dbml_rel r ++ " " ++
                    ref_table r ++ "." ++ ref_column r]
  | None => []
  end.

(** exporter.go:73-75 *)
Definition dbml_note (c : column) : list string :=
  if String.eqb (c_desc c) "" then [] else ["note: """ ++ c_desc c ++ """"].

(** exporter.go:39-75 params *)
Definition dbml_params (defined : list string) (c : column) : list string :=
  ((if c_pk c then ["pk"] else []) ++ (if c_uq c then ["unique"] else []) ++
   (if c_notnull c then ["not null"] else []) ++ dbml_default c ++ dbml_inline defined c ++
   dbml_note c)%list.

(** exporter.go:86-90 *)
Definition dbml_column (defined : list string) (c : column) : string :=
  let params := dbml_params defined c in
  let head := "  " ++ c_name c ++ " " ++ dbml_type c in
  match params with
  | [] => head
  | _ => head ++ " [" ++ join ", " params ++ "]"
  end.

(** exporter.go:35-96, the loop over the tables: lines and deferred references *)
Fixpoint dbml_tables (defined : list string) (ts : list table) : list string * list string :=
  match ts with
  | [] => ([], [])
  | t :: ts' =>
      let '(ls, rs) := dbml_tables (t_name t :: defined) ts' in
      let head := "Table " ++ t_name t ++ " {" in
      (head :: map (dbml_column defined) (t_cols t) ++ ["}"; ""] ++ ls,
       flat_map (dbml_deferred defined t) (t_cols t) ++ rs)%list
  end.

(** exporter.go:30-101 exportToString. The table filter of the option is never consulted. *)
Definition export_dbml (filter : option (table -> bool)) (s : schema) : string :=
  let nl := String "010" "" in
  let '(ls, rs) := dbml_tables [] (s_tables s) in
  join nl (ls ++ [join nl rs])%list.
