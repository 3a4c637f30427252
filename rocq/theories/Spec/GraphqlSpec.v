(** A reader for GraphQL type definitions (spec.graphql.org, section 3) as far as needed, and what the
    text should say *)
From Coq Require Import String Ascii List NArith Bool.
From Verif.Model Require Import GoString Octopus.
From Verif.Spec Require Import Text Reading OctopusSpec.
Import ListNotations.
Local Open Scope string_scope.

Inductive gtype := GName (s : string) | GList (s : string) | GNonNull (t : gtype).
(** a definition: the schema, or the type of that name *)
Inductive gdef := GSchema (fields : list (string * gtype)) | GType (name : string) (fields : list (string * gtype)).

Definition read_nullable (s : string) : gtype :=
  match between "[" "]" s with Some n => GList n | None => GName s end.
Definition read_gtype (s : string) : gtype :=
  match strip_end "!" s with Some r => GNonNull (read_nullable r) | None => read_nullable s end.

Fixpoint skip_spaces (s : string) : string :=
  match s with String " " s' => skip_spaces s' | _ => s end.
Definition read_gfield (s : string) : option (string * gtype) :=
  match cut ":" (skip_spaces s) with
  | Some (n, rest) => Some (n, read_gtype (skip_spaces rest))
  | None => None
  end.

Inductive gopen := GTop | GInSchema (l : list (string * gtype)) | GInType (n : string) (l : list (string * gtype)).
Fixpoint read_defs (st : gopen) (ls : list string) : option (list gdef) :=
  match ls with
  | [] => match st with GTop => Some [] | _ => None end
  | s :: ls' =>
      match st with
      | GTop =>
          if String.eqb s "" then read_defs GTop ls'
          else if String.eqb s "schema {" then read_defs (GInSchema []) ls'
          else match between "type " " {" s with
               | Some n => read_defs (GInType n []) ls'
               | None => None
               end
      | GInSchema l =>
          if String.eqb s "}" then option_map (cons (GSchema l)) (read_defs GTop ls')
          else match read_gfield s with
               | Some x => read_defs (GInSchema (l ++ [x])%list) ls'
               | None => None
               end
      | GInType n l =>
          if String.eqb s "}" then option_map (cons (GType n l)) (read_defs GTop ls')
          else match read_gfield s with
               | Some x => read_defs (GInType n (l ++ [x])%list) ls'
               | None => None
               end
      end
  end.
Definition read_graphql (s : string) : option (list gdef) := read_defs GTop (lines s).

(** ** What it should say *)

(** the scalar for a column type *)
Definition scalars : list (string * list string) :=
  [("Boolean", ["boolean"]); ("Int", integer_types); ("Float", ["float"; "double"; "decimal"])].
Definition scalar_of (t b : string) : Prop :=
  (exists ts, In (b, ts) scalars /\ In t ts) \/
  (b = "String" /\ forall b' ts, In (b', ts) scalars -> ~ In t ts).

(** [c] is the only primary key column *)
Definition sole_key (t : table) (c : column) : Prop :=
  c_pk c = true /\ exists l r, t_cols t = (l ++ c :: r)%list /\ forall d, In d (l ++ r) -> c_pk d = false.

Definition gfield_described (name : string -> string) (t : table) (c : column) (x : string * gtype) : Prop :=
  fst x = name (c_name c) /\
  (sole_key t c -> snd x = GNonNull (GName "ID")) /\
  (~ sole_key t c -> exists b, scalar_of (c_type c) b /\
     snd x = if c_notnull c then GNonNull (GName b) else GName b).

(** the name of the type of a table: the class name if there is one, otherwise the prefix of its group
    and the camel case of the table name without the unwanted prefixes *)
Definition without (unwanted : list string) (n : string) : string :=
  fold_left (fun n p => match strip p n with Some r => r | None => n end) unwanted n.
Definition type_named (camel prefix : string -> string) (unwanted : list string) (t : table) : string :=
  match t_class t with
  | "" => prefix (t_group t) ++ camel (without unwanted (t_name t))
  | n => n
  end.

Section Described.
Variables camel lower_camel plural prefix : string -> string.
Variable unwanted : list string.

(** every name in the text is a word, and the types are valid *)
Definition gql_names_ok (selected : list table) : Prop :=
  forall t, In t selected ->
    word (type_named camel prefix unwanted t) /\
    word (plural (lower_camel (type_named camel prefix unwanted t))) /\
    forall c, In c (t_cols t) -> word (lower_camel (c_name c)) /\ In (c_type c) octopus_types.

Definition type_described (t : table) (d : gdef) : Prop :=
  match d with
  | GSchema _ => False
  | GType n fs => n = type_named camel prefix unwanted t /\
      Forall2 (gfield_described lower_camel t) (t_cols t) fs
  end.
End Described.
