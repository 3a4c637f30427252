(** A schema file without the members that docs/octopus-format.md does not describe, and with the names of the others in
    lower case (C138) *)
From Coq Require Import String Ascii List NArith Bool.
From Verif.Model Require Import GoString Json JsonText.
Import ListNotations.
Local Open Scope string_scope.

(** the members of an object that have one of the [names], whatever the case; [inner] is done to their values *)
Definition kept (names : list string) (inner : string -> json -> json) (j : json) : json :=
  match j with
  | JObj l => JObj (flat_map (fun kv => let k := to_lower (fst kv) in
                                        if existsb (String.eqb k) names then [(k, inner k (snd kv))] else []) l)
  | _ => j
  end.
Definition each (f : json -> json) (j : json) : json := match j with JArr a => JArr (map f a) | _ => j end.
Definition nothing (k : string) (j : json) : json := j.

Definition essential_ref (j : json) : json := kept ["table"; "column"; "relationship"] nothing j.
Definition essential_column (j : json) : json :=
  kept ["name"; "type"; "desc"; "size"; "scale"; "notnull"; "pk"; "unique"; "autoinc"; "default"; "onupdate"; "values"; "ref"]
       (fun k v => if String.eqb k "ref" then essential_ref v else v) j.
Definition essential_index (j : json) : json := kept ["name"; "columns"] nothing j.
Definition essential_table (j : json) : json :=
  kept ["name"; "columns"; "desc"; "group"; "classname"; "indices"]
       (fun k v => if String.eqb k "columns" then each essential_column v
                   else if String.eqb k "indices" then each essential_index v else v) j.
Definition essential (j : json) : json :=
  kept ["author"; "name"; "version"; "tables"] (fun k v => if String.eqb k "tables" then each essential_table v else v) j.

(** the same file, or two JSON texts with the same described members *)
Definition same_essence (a b : option string) : Prop :=
  a = b \/ exists x y j k, a = Some x /\ b = Some y /\ read_text x = Some j /\ read_text y = Some k /\ essential j = essential k.
