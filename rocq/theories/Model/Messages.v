(** Model of /repo/format/octopus/errors.go, and of the errors of Normalize with their texts *)
From Coq Require Import String Ascii List NArith Bool.
From Verif.Model Require Import GoString Octopus.
Import ListNotations.
Local Open Scope string_scope.

(** column.go:115-127, the field Msg. Written like this in the code. *)
Definition values_message (c : column) : string :=
  if String.eqb (c_type c) "set"
  then "invalud set member count: " ++ itoa (N.of_nat (length (c_values c))) ++ " (0 < count < 64)"
  else "empty enum values".

(** errors.go:9-36 Error, of an error about the column [c] *)
Definition error_text (c : column) (e : verror) : string :=
  match e with
  | EmptyColumnName => "column name is empty. type: " ++ c_type c
  | InvalidAutoIncremental => "column '" ++ c_name c ++ "' type '" ++ c_type c ++ "' cannot be autoIncremental"
  | InvalidColumnType => "column '" ++ c_name c ++ "' type '" ++ c_type c ++ "' is invalid"
  | InvalidColumnValues => "column '" ++ c_name c ++ "' has invalid values: " ++ values_message c
  end.

(** table.go:185-189; the error points to the column, which nobody changes any more *)
Fixpoint cols_message (cs : list column) : option string :=
  match cs with
  | [] => None
  | c :: cs' => match validate true (normalize_type c) with
                | (c', Some e) => Some (error_text c' e)
                | (_, None) => cols_message cs'
                end
  end.
(** table.go:184-191 *)
Fixpoint tables_message (ts : list table) : option string :=
  match ts with
  | [] => None
  | t :: ts' => match cols_message (t_cols t) with
                | Some m => Some ("table: '" ++ t_name t ++ "': " ++ m)
                | None => tables_message ts'
                end
  end.
(** table.go:180-193 Normalize, the text of the error; [sortf] as in [normalize] *)
Definition normalize_message (sortf : list table -> list table) (s : schema) : option string :=
  tables_message (sortf (s_tables s)).
