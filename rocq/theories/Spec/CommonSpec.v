(** Option texts and file extensions *)
From Coq Require Import String Ascii List.
From Verif.Model Require Import GoString.
From Verif.Spec Require Import Text.
Import ListNotations.
Local Open Scope string_scope.

(** the option text for a list of group:value pairs *)
Definition pairs_text (l : list (string * string)) : string :=
  join "," (map (fun p => fst p ++ ":" ++ snd p) l).

(** an extension: neither a dot nor a slash *)
Definition clean_ext (e : string) : Prop := ~ char_in "." e /\ ~ char_in "/" e.

(** the format table, by lower-cased extension without the dot *)
Definition format_table : list (string * string) :=
  [("graphql", "graphql"); ("graphqls", "graphql"); ("json", "octopus2"); ("mdj", "staruml2");
   ("ojson", "octopus1"); ("plantuml", "plantuml"); ("schema", "schema-converter"); ("xlsx", "xlsx")].
(** [e] has format [f]; an extension that is not listed has format "" *)
Definition has_format (e f : string) : Prop :=
  In (e, f) format_table \/ (~ In e (map fst format_table) /\ f = "").
