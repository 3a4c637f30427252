(** A reader for the part of DBML (dbml.dbdiagram.io/docs) that is needed here, and what the text
    should say about a schema *)
From Coq Require Import String Ascii List NArith Bool.
From Verif.Model Require Import GoString Octopus.
From Verif.Spec Require Import Text Reading OctopusSpec.
Import ListNotations.
Local Open Scope string_scope.

Inductive relation := Many_to_one | One_to_many | One_to_one.
(** a column reference: the table and column it starts from, its kind, and its target *)
Record link := mkLink { l_table : string; l_column : string; l_rel : relation; l_to : string; l_to_column : string }.

Inductive dvalue := DText (s : string) | DLiteral (s : string).
Inductive setting :=
| SPk | SUnique | SNotNull | SDefault (v : dvalue) | SRef (r : relation) (t c : string) | SNote (s : string).
Record dcolumn := mkDCol { d_name : string; d_type : string; d_settings : list setting }.
Record dtable := mkDTable { d_tname : string; d_cols : list dcolumn }.

(** ** The reader *)

(** splits at commas outside quotes; one space after a comma is skipped *)
Fixpoint split_settings (q : option ascii) (acc s : string) : list string :=
  match s with
  | EmptyString => [acc]
  | String c s' =>
      match q with
      | Some d => split_settings (if Ascii.eqb c d then None else q) (acc ++ String c "") s'
      | None =>
          if Ascii.eqb c "," then
            acc :: match s' with
                   | String " " s'' => split_settings None "" s''
                   | _ => split_settings None "" s'
                   end
          else split_settings (if Ascii.eqb c """" || Ascii.eqb c "'" then Some c else None)
                              (acc ++ String c "") s'
      end
  end.

Definition number_char (c : ascii) : bool := is_digit c || Ascii.eqb c "." || Ascii.eqb c "-".
(** unquoted values: numbers, true, false, null *)
Definition literal (s : string) : bool :=
  (negb (String.eqb s "") && string_forallb number_char s) ||
  existsb (String.eqb s) ["true"; "false"; "null"].

Definition read_value (s : string) : option dvalue :=
  match between "'" "'" s with
  | Some v => if contains_char "'" v then None else Some (DText v)
  | None => if literal s then Some (DLiteral s) else None
  end.

(** "> table.column" *)
Definition read_target (s : string) : option (relation * string * string) :=
  match cut " " s with
  | Some (r, target) =>
      match cut "." target with
      | Some (t, c) =>
          if String.eqb r ">" then Some (Many_to_one, t, c)
          else if String.eqb r "<" then Some (One_to_many, t, c)
          else if String.eqb r "-" then Some (One_to_one, t, c)
          else None
      | None => None
      end
  | None => None
  end.

Definition read_setting (s : string) : option setting :=
  if String.eqb s "pk" then Some SPk
  else if String.eqb s "unique" then Some SUnique
  else if String.eqb s "not null" then Some SNotNull
  else match strip "default: " s with
  | Some v => option_map SDefault (read_value v)
  | None =>
  match strip "ref: " s with
  | Some v => option_map (fun x => SRef (fst (fst x)) (snd (fst x)) (snd x)) (read_target v)
  | None =>
  match between "note: """ """" s with
  | Some v => if contains_char """" v then None else Some (SNote v)
  | None => None
  end end end.

(** "name type" or "name type [settings]" *)
Definition read_dcolumn (s : string) : option dcolumn :=
  match strip "  " s with
  | None => None
  | Some s =>
      match cut " " s with
      | None => None
      | Some (n, rest) =>
          match cut " " rest with
          | None => Some (mkDCol n rest [])
          | Some (ty, opts) =>
              match between "[" "]" opts with
              | None => None
              | Some body => match read_all read_setting (split_settings None "" body) with
                             | Some l => Some (mkDCol n ty l)
                             | None => None
                             end
              end
          end
      end
  end.

(** "Ref: table.column > table.column" *)
Definition read_ref (s : string) : option link :=
  match strip "Ref: " s with
  | None => None
  | Some s =>
      match cut "." s with
      | None => None
      | Some (t, rest) =>
          match cut " " rest with
          | None => None
          | Some (c, rest) => match read_target rest with
                              | Some (r, t', c') => Some (mkLink t c r t' c')
                              | None => None
                              end
          end
      end
  end.

Inductive item := ITable (t : dtable) | IRef (l : link).

(** [open] is the table being read *)
Fixpoint read_items (open : option (string * list dcolumn)) (ls : list string) : option (list item) :=
  match ls with
  | [] => match open with None => Some [] | Some _ => None end
  | s :: ls' =>
      match open with
      | Some (t, cols) =>
          if String.eqb s "}"
          then option_map (cons (ITable (mkDTable t cols))) (read_items None ls')
          else match read_dcolumn s with
               | Some c => read_items (Some (t, (cols ++ [c])%list)) ls'
               | None => None
               end
      | None =>
          if String.eqb s "" then read_items None ls'
          else match between "Table " " {" s with
               | Some t => read_items (Some (t, [])) ls'
               | None => match read_ref s with
                         | Some l => option_map (cons (IRef l)) (read_items None ls')
                         | None => None
                         end
               end
      end
  end.
Definition read_dbml (s : string) : option (list item) := read_items None (lines s).

(** ** What it should say *)

Definition relation_of (r : reference) : relation :=
  if String.eqb (ref_rel r) "1:n" then One_to_many
  else if String.eqb (ref_rel r) "1:1" then One_to_one else Many_to_one.
Definition column_links (t : table) (c : column) : list link :=
  match c_ref c with
  | Some r => [mkLink (t_name t) (c_name c) (relation_of r) (ref_table r) (ref_column r)]
  | None => []
  end.
Definition table_links (t : table) : list link := flat_map (column_links t) (t_cols t).
(** every reference of the schema, once *)
Definition schema_links (s : schema) : list link := flat_map table_links (s_tables s).

(** the references written inside a table *)
Definition inline_links (t : dtable) : list link :=
  flat_map (fun c => flat_map (fun x => match x with
                                        | SRef r t' c' => [mkLink (d_tname t) (d_name c) r t' c']
                                        | _ => [] end) (d_settings c)) (d_cols t).

Definition text_type (t : string) : Prop := t = "char" \/ t = "varchar".

(** the settings of a column, the reference aside *)
Definition column_described (c : column) (d : dcolumn) : Prop :=
  d_name d = c_name c /\
  (d_type d = match c_size c, c_scale c with
              | 0%N, _ => c_type c
              | n, 0%N => c_type c ++ "(" ++ itoa n ++ ")"
              | n, m => c_type c ++ "(" ++ itoa n ++ "," ++ itoa m ++ ")"
              end) /\
  (In SPk (d_settings d) <-> c_pk c = true) /\
  (In SUnique (d_settings d) <-> c_uq c = true) /\
  (In SNotNull (d_settings d) <-> c_notnull c = true) /\
  (forall v, In (SDefault v) (d_settings d) <->
     c_default c <> "" /\
     (text_type (c_type c) /\ v = DText (c_default c) \/
      ~ text_type (c_type c) /\ v = DLiteral (c_default c))) /\
  (forall v, In (SNote v) (d_settings d) <-> c_desc c <> "" /\ v = c_desc c) /\
  NoDup (d_settings d).

(** [above] are the names of the tables defined further up: a reference is written inline exactly if
    its target is one of them *)
Inductive tables_described : list string -> list table -> list dtable -> Prop :=
| td_nil : forall above, tables_described above [] []
| td_cons : forall above t ts d ds,
    d_tname d = t_name t ->
    Forall2 column_described (t_cols t) (d_cols d) ->
    inline_links d = filter (fun l => if in_dec string_dec (l_to l) above then true else false) (table_links t) ->
    tables_described (above ++ [t_name t]) ts ds ->
    tables_described above (t :: ts) (d :: ds).

(** texts that need no escaping *)
Definition dbml_column_ok (c : column) : Prop :=
  word (c_name c) /\ In (c_type c) octopus_types /\
  ~ char_in """" (c_desc c) /\ one_line (c_desc c) /\
  match c_ref c with Some r => word (ref_table r) /\ word (ref_column r) | None => True end.
(** the default is something DBML can express the way it is written: text for char and varchar,
    a number, true, false or null for any other type *)
Definition dbml_default_ok (c : column) : Prop :=
  c_default c = "" \/
  (text_type (c_type c) /\ ~ char_in "'" (c_default c) /\ one_line (c_default c)) \/
  (~ text_type (c_type c) /\ literal (c_default c) = true).
Definition dbml_ok (s : schema) : Prop :=
  (forall t, In t (s_tables s) -> word (t_name t)) /\
  (forall c, In c (columns_of s) -> dbml_column_ok c /\ dbml_default_ok c).

(** names of the tables a text defines *)
Definition defines (l : list item) : list string :=
  flat_map (fun i => match i with ITable t => [d_tname t] | IRef _ => [] end) l.
