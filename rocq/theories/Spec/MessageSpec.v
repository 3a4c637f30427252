(** What a message about a schema says, and whether it is true (C143) *)
From Coq Require Import String Ascii List NArith Bool.
From Verif.Model Require Import GoString Octopus.
From Verif.Spec Require Import Text Reading OctopusSpec MarkdownReading.
Import ListNotations.
Local Open Scope string_scope.

Inductive fault :=
| NoName (type : string)
| WrongType (name type : string)
| NoEnumValues (name : string)
| SetMembers (name : string) (count : N).

(** between quotes: up to the next one *)
Definition read_quoted (before s : string) : option (string * string) :=
  match strip (before ++ "'") s with Some r => cut "'" r | None => None end.

Definition read_fault (s : string) : option fault :=
  match strip "column name is empty. type: " s with
  | Some type => Some (NoName type)
  | None =>
      match read_quoted "column " s with
      | None => None
      | Some (name, r) =>
          match between " type '" "' is invalid" r with
          | Some type => Some (WrongType name type)
          | None =>
              match strip " has invalid values: " r with
              | None => None
              | Some v =>
                  if String.eqb v "empty enum values" then Some (NoEnumValues name)
                  else match strip "invalud set member count: " v with
                       | None => None
                       | Some w => match cut " " w with
                                   | None => None
                                   | Some (n, _) => option_map (SetMembers name) (decimal n)
                                   end
                       end
              end
          end
      end
  end.
(** the table, and what is wrong in it *)
Definition read_message (s : string) : option (string * fault) :=
  match read_quoted "table: " s with
  | None => None
  | Some (t, r) => match strip ": " r with
                   | None => None
                   | Some m => option_map (pair t) (read_fault m)
                   end
  end.

(** the column has the fault *)
Definition has_fault (c : column) (f : fault) : Prop :=
  match f with
  | NoName ty => c_name c = "" /\ canonical (c_type c) ty
  | WrongType n ty => c_name c = n /\ canonical (c_type c) ty /\ ~ In ty octopus_types
  | NoEnumValues n => c_name c = n /\ canonical (c_type c) "enum" /\ c_values c = []
  | SetMembers n k => c_name c = n /\ canonical (c_type c) "set" /\ N.of_nat (length (c_values c)) = k /\ (k = 0 \/ 64 < k)%N
  end.

(** no quote in the names of tables and columns *)
Definition no_quotes (s : schema) : Prop :=
  forall t, In t (s_tables s) -> ~ char_in "'" (t_name t) /\ forall c, In c (t_cols t) -> ~ char_in "'" (c_name c).
