(** Model of /repo/format/plantuml/generator.go *)
From Coq Require Import String Ascii List NArith Bool.
From Verif.Model Require Import GoString Octopus.
Import ListNotations.
Local Open Scope string_scope.

(** generator.go:79-90 getRelationshipType *)
Definition puml_rel (r : reference) : string :=
  if String.eqb (ref_rel r) "n:1" then "}o-||"
  else if String.eqb (ref_rel r) "1:n" then "||-o{"
  else if String.eqb (ref_rel r) "1:1" then "||-||"
  else "}o-||".

(** generator.go:58-77 getColumnDef *)
Definition puml_column (c : column) : string :=
  (if c_notnull c then "* " else "") ++ c_name c ++ ": " ++ c_type c ++
  (if c_pk c then " <<PK>>" else "") ++ (if c_uq c then " <<UQ>>" else "") ++
  match c_ref c with Some _ => " <<FK>>" | None => "" end.

(** generator.go:26-39, the column loop *)
Fixpoint puml_columns (separator_added : bool) (cs : list column) : list string :=
  match cs with
  | [] => []
  | c :: cs' =>
      let line := "    " ++ puml_column c in
      if negb (c_pk c) && negb separator_added
      then "    --" :: line :: puml_columns true cs'
      else line :: puml_columns separator_added cs'
  end.

(** generator.go:34-38 *)
Definition puml_refs (t : table) : list string :=
  flat_map (fun c => match c_ref c with
    | Some r => [t_name t ++ " " ++ puml_rel r ++ " " ++ ref_table r]
    | None => [] end) (t_cols t).

(** generator.go:23-41, one table *)
Definition puml_entity (t : table) : list string :=
  let head := "entity " ++ t_name t ++ " {" in
  (head :: puml_columns false (t_cols t) ++ ["}"])%list.

(** generator.go:18-48 Generate, the text written *)
Definition puml_text (s : schema) : string :=
  join (String "010" "")
    ("@startuml" :: flat_map puml_entity (s_tables s) ++ flat_map puml_refs (s_tables s) ++ ["@enduml"])%list.
