(** What the three texts for drawing tools show, in common terms *)
From Coq Require Import String Ascii List NArith Bool.
From Verif.Spec Require Import Text Reading DbmlSpec PlantumlSpec QuickdbdSpec.
Import ListNotations.
Local Open Scope string_scope.

(** a column as all three show it *)
Record shown := mkShown { w_name : string; w_type : string; w_pk : bool; w_unique : bool; w_notnull : bool }.
(** tables with their columns, in the order of the text *)
Definition picture : Type := list (string * list shown).

(** a type without the size and scale behind it *)
Fixpoint bare_type (s : string) : string :=
  match s with
  | "" => ""
  | String c s' => if Ascii.eqb c "(" then "" else String c (bare_type s')
  end.

(** ** DBML *)
Definition is_pk (x : setting) : bool := match x with SPk => true | _ => false end.
Definition is_unique (x : setting) : bool := match x with SUnique => true | _ => false end.
Definition is_not_null (x : setting) : bool := match x with SNotNull => true | _ => false end.
Definition dbml_shown (d : dcolumn) : shown :=
  mkShown (d_name d) (bare_type (d_type d)) (existsb is_pk (d_settings d)) (existsb is_unique (d_settings d))
    (existsb is_not_null (d_settings d)).
Definition dbml_tables (l : list item) : list dtable :=
  flat_map (fun i => match i with ITable t => [t] | IRef _ => [] end) l.
Definition dbml_picture (l : list item) : picture :=
  map (fun t => (d_tname t, map dbml_shown (d_cols t))) (dbml_tables l).
(** the references inside the tables, and those after them *)
Definition dbml_links (l : list item) : list link :=
  (flat_map inline_links (dbml_tables l) ++ flat_map (fun i => match i with ITable _ => [] | IRef x => [x] end) l)%list.

(** ** PlantUML *)
Definition has_mark (m : string) (marks : list string) : bool := existsb (String.eqb m) marks.
Definition puml_shown (r : prow) : list shown :=
  match r with
  | PLine => []
  | PAttr mandatory n ty marks => [mkShown n ty (has_mark "<<PK>>" marks) (has_mark "<<UQ>>" marks) mandatory]
  end.
Definition puml_picture (es : list pentity) : picture :=
  map (fun e => (p_name e, flat_map puml_shown (p_rows e))) es.
(** the columns marked as references, with their tables *)
Definition puml_marked (es : list pentity) : list (string * string) :=
  flat_map (fun e => flat_map (fun r => match r with
                                        | PAttr _ n _ marks => if has_mark "<<FK>>" marks then [(p_name e, n)] else []
                                        | PLine => [] end) (p_rows e)) es.

(** ** QuickDBD *)
Definition qdbd_shown (c : qcolumn) : shown :=
  mkShown (q_name c) (q_type c) (q_pk c) (q_unique c) (negb (q_nullable c)).
Definition qdbd_picture (ts : list qtable) : picture :=
  map (fun t => (q_tname t, map qdbd_shown (q_cols t))) ts.
Definition qdbd_links (ts : list qtable) : list link :=
  flat_map (fun t => flat_map (fun c => match q_fk c with
                                        | Some (r, t', c') => [mkLink (q_tname t) (q_name c) r t' c']
                                        | None => [] end) (q_cols t)) ts.

(** ** What only DBML and QuickDBD show: default values and descriptions, column by column *)
Definition value_text (v : dvalue) : string := match v with DText s | DLiteral s => s end.
Definition dbml_remarks (d : dcolumn) : option string * option string :=
  (find (fun _ => true) (flat_map (fun x => match x with SDefault v => [value_text v] | _ => [] end) (d_settings d)),
   find (fun _ => true) (flat_map (fun x => match x with SNote v => [v] | _ => [] end) (d_settings d))).
Definition qdbd_remarks (c : qcolumn) : option string * option string := (q_default c, q_note c).

(** Schemas that all three can express: names are words and types those of the format, defaults are values without
    spaces, texts have neither line breaks nor (in descriptions of columns) double quotes *)
Definition drawable (s : Verif.Model.Octopus.schema) : Prop := dbml_ok s /\ puml_ok s /\ qdbd_ok s.
