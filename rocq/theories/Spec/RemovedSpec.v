(** Comparisons with a schema without tables on one side (C132) *)
From Coq Require Import String Ascii List.
From Verif.Model Require Import Octopus.
From Verif.Spec Require Import Order.
Import ListNotations.
Local Open Scope string_scope.

(** the names of the tables, each once, in alphabetical order *)
Definition names_of (ts : list table) (ns : list string) : Prop :=
  strictly_increasing ns /\ forall n, In n ns <-> exists t, In t ts /\ t_name t = n.

Definition eol : string := String "010" "".
(** lines, each with its end *)
Definition as_text (ls : list string) : string := String.concat "" (map (fun l => l ++ eol) ls).

(** the script that drops tables *)
Definition drop_script (ns : list string) : string := as_text (flat_map (fun n => ["DROP TABLE " ++ n ++ ";"; ""]) ns).
(** the report with one thing to say about each of the tables *)
Definition one_line_report (from to what : string) (ns : list string) : string :=
  let head := ["# DB Schema changes"; ""; "* from: `" ++ from ++ "`"; "* to: `" ++ to ++ "`"] in
  let section n := [""; "## " ++ n; "* " ++ what] in
  as_text (head ++ flat_map section ns)%list.
