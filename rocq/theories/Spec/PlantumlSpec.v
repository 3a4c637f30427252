(** A reader for entity diagrams (plantuml.com/ie-diagram) and what the text should say *)
From Coq Require Import String Ascii List NArith Bool.
From Verif.Model Require Import GoString Octopus.
From Verif.Spec Require Import Text Reading OctopusSpec DbmlSpec.
Import ListNotations.
Local Open Scope string_scope.

(** an attribute: mandatory mark, name, type, stereotypes *)
Inductive prow := PLine | PAttr (mandatory : bool) (name type : string) (marks : list string).
Record pentity := mkPEnt { p_name : string; p_rows : list prow }.
Record prelation := mkPRel { p_from : string; p_rel : relation; p_to : string }.

Definition read_attr (s : string) : option prow :=
  let '(mand, s) := accept "* " s in
  match cut ":" s with
  | None => None
  | Some (n, rest) =>
      match split_on " " rest with
      | "" :: ty :: marks =>
          if forallb (fun m => existsb (String.eqb m) ["<<PK>>"; "<<UQ>>"; "<<FK>>"]) marks
          then Some (PAttr mand n ty marks) else None
      | _ => None
      end
  end.
Definition read_row (s : string) : option prow :=
  match strip "    " s with
  | None => None
  | Some s => if String.eqb s "--" then Some PLine else read_attr s
  end.

(** crow's feet: many (optional) or exactly one, on either side *)
Definition read_relation (s : string) : option prelation :=
  match split_on " " s with
  | [a; r; b] =>
      if String.eqb r "}o-||" then Some (mkPRel a Many_to_one b)
      else if String.eqb r "||-o{" then Some (mkPRel a One_to_many b)
      else if String.eqb r "||-||" then Some (mkPRel a One_to_one b)
      else None
  | _ => None
  end.

Fixpoint read_body (open : option (string * list prow)) (ls : list string) : option (list pentity * list prelation) :=
  match ls with
  | [] => None
  | s :: ls' =>
      match open with
      | Some (n, rows) =>
          if String.eqb s "}" then
            match read_body None ls' with
            | Some (es, rs) => Some (mkPEnt n rows :: es, rs)
            | None => None
            end
          else match read_row s with
               | Some r => read_body (Some (n, (rows ++ [r])%list)) ls'
               | None => None
               end
      | None =>
          if String.eqb s "@enduml" then match ls' with [] => Some ([], []) | _ => None end
          else match between "entity " " {" s with
               | Some n => read_body (Some (n, [])) ls'
               | None => match read_relation s, read_body None ls' with
                         | Some r, Some (es, rs) => Some (es, r :: rs)
                         | _, _ => None
                         end
               end
      end
  end.
(** the entities and the relations of a diagram *)
Definition read_puml (s : string) : option (list pentity * list prelation) :=
  match lines s with
  | "@startuml" :: ls => read_body None ls
  | _ => None
  end.

(** ** What it should say *)

Definition attr_described (c : column) (r : prow) : Prop :=
  match r with
  | PLine => False
  | PAttr mand n ty marks =>
      mand = c_notnull c /\ n = c_name c /\ ty = c_type c /\ NoDup marks /\
      (In "<<PK>>" marks <-> c_pk c = true) /\ (In "<<UQ>>" marks <-> c_uq c = true) /\
      (In "<<FK>>" marks <-> c_ref c <> None)
  end.

(** one row per column, and one line before the first column outside the primary key *)
Definition entity_described (t : table) (e : pentity) : Prop :=
  p_name e = t_name t /\
  exists keys rest krows rrows,
    t_cols t = (keys ++ rest)%list /\ (forall c, In c keys -> c_pk c = true) /\
    Forall2 attr_described keys krows /\ Forall2 attr_described rest rrows /\
    match rest with
    | [] => p_rows e = krows
    | c :: _ => c_pk c = false /\ p_rows e = (krows ++ PLine :: rrows)%list
    end.

Definition relation_described (l : link) : prelation := mkPRel (l_table l) (l_rel l) (l_to l).

Definition puml_ok (s : schema) : Prop :=
  (forall t, In t (s_tables s) -> word (t_name t)) /\
  (forall c, In c (columns_of s) -> word (c_name c) /\ word (c_type c) /\
     match c_ref c with Some r => word (ref_table r) | None => True end).
