(** Comparing with an empty schema *)
From Coq Require Import String List.
From Verif.Model Require Import Octopus Cli.
From Verif.Spec Require Import Reading.
Import ListNotations.
Local Open Scope string_scope.

(** the lines of a text that are not empty *)
Definition written_lines (s : string) : list string := filter (fun l => negb (String.eqb l "")) (lines s).
(** an option that is not given, or given without a value *)
Definition left_out (v : values) (name : string) : Prop := v name = None \/ v name = Some "".
(** the same value of an option *)
Definition same_value (v v' : values) (name : string) : Prop := v name = v' name.
