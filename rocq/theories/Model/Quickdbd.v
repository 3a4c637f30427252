(** Model of /repo/format/quickdbd/exporter.go *)
From Coq Require Import String Ascii List NArith Bool.
From Verif.Model Require Import GoString Octopus.
Import ListNotations.
Local Open Scope string_scope.

(** exporter.go:72-83 getRelationshipType *)
Definition qdbd_rel (r : reference) : string :=
  if String.eqb (ref_rel r) "n:1" then ">-"
  else if String.eqb (ref_rel r) "1:n" then "-<"
  else if String.eqb (ref_rel r) "1:1" then "-"
  else ">-".

(** exporter.go:34-40 getTableDef *)
Definition qdbd_table (t : table) : string :=
  if String.eqb (t_desc t) "" then t_name t else t_name t ++ " # " ++ t_desc t.

Definition opt_param (b : bool) (s : string) : list string := if b then [s] else [].

(** exporter.go:42-70 getColumnDef *)
Definition qdbd_column (c : column) : string :=
  let default := "default=" ++ c_default c in
  let desc := "# " ++ c_desc c in
  let fk := match c_ref c with
            | Some r => ["FK " ++ qdbd_rel r ++ " " ++ ref_table r ++ "." ++ ref_column r]
            | None => [] end in
  let params := ([c_type c] ++ opt_param (c_pk c) "PK" ++ opt_param (c_uq c) "UNIQUE" ++
    opt_param (c_autoinc c) "AUTOINCREMENT" ++ opt_param (negb (c_notnull c)) "NULLABLE" ++
    opt_param (negb (String.eqb (c_default c) "")) default ++ fk ++
    opt_param (negb (String.eqb (c_desc c) "")) desc)%list in
  c_name c ++ " " ++ join " " params.

(** strings.Repeat("-", n) *)
Fixpoint dashes (n : nat) : string := match n with O => "" | S n' => String "-" (dashes n') end.

(** exporter.go:18-32 Export, the text written *)
Definition qdbd_block (t : table) : list string :=
  (qdbd_table t :: dashes (String.length (t_name t)) :: map qdbd_column (t_cols t) ++ [""])%list.
Definition qdbd_text (s : schema) : string :=
  join (String "010" "") (flat_map qdbd_block (s_tables s)).
