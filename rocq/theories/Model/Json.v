(** JSON trees, and how encoding/json maps them to the structs of /repo/format/octopus.

    encoding/json is not part of /repo; its documented behaviour for struct tags is
    modelled here: json.MarshalIndent (table.go:165) and json.Unmarshal (table.go:177).
    The text syntax is not modelled in this file. Simplifications: a member given twice
    replaces the earlier one completely (Go merges pointers and slices element-wise);
    case-insensitive matching of member names is ASCII only; null elements of arrays
    are rejected (Go stores nil pointers; see load_file in Cli.v). *)
From Coq Require Import String Ascii List NArith Bool.
From Verif.Model Require Import GoString Util Octopus.
Import ListNotations.
Local Open Scope string_scope.

(** A number keeps its literal *)
Inductive json :=
| JNull
| JBool (b : bool)
| JNum (lit : string)
| JStr (s : string)
| JArr (l : list json)
| JObj (l : list (string * json)).

(** ** Encoding *)

(** struct tag ",omitempty" *)
Definition om_str (k s : string) : list (string * json) :=
  if String.eqb s "" then [] else [(k, JStr s)].
Definition om_num (k : string) (n : N) : list (string * json) :=
  if N.eqb n 0 then [] else [(k, JNum (itoa n))].
Definition om_bool (k : string) (b : bool) : list (string * json) :=
  if b then [(k, JBool true)] else [].
Definition om_arr (k : string) (l : list json) : list (string * json) :=
  match l with [] => [] | _ => [(k, JArr l)] end.

(** column.go:17-21 *)
Definition enc_ref (r : reference) : json :=
  JObj (om_str "table" (ref_table r) ++ om_str "column" (ref_column r)
        ++ om_str "relationship" (ref_rel r))%list.

(** column.go:23-37 *)
Definition enc_column (c : column) : json :=
  JObj ([("name", JStr (c_name c)); ("type", JStr (c_type c))]
        ++ om_str "desc" (c_desc c)
        ++ om_num "size" (c_size c)
        ++ om_num "scale" (c_scale c)
        ++ om_bool "notnull" (c_notnull c)
        ++ om_bool "pk" (c_pk c)
        ++ om_bool "unique" (c_uq c)
        ++ om_bool "autoinc" (c_autoinc c)
        ++ om_str "default" (c_default c)
        ++ om_str "onupdate" (c_onupdate c)
        ++ om_arr "values" (map JStr (c_values c))
        ++ match c_ref c with None => [] | Some r => [("ref", enc_ref r)] end)%list.

(** table.go:11-14. A nil slice is written as null, an empty one as []; the model
    writes null for both. *)
Definition enc_index (i : index) : json :=
  JObj [("name", JStr (ix_name i));
        ("columns", match ix_cols i with [] => JNull | l => JArr (map JStr l) end)].

(** table.go:20-27 *)
Definition enc_table (t : table) : json :=
  JObj (om_str "name" (t_name t)
        ++ om_arr "columns" (map enc_column (t_cols t))
        ++ om_str "desc" (t_desc t)
        ++ om_str "group" (t_group t)
        ++ om_str "className" (t_class t)
        ++ om_arr "indices" (map enc_index (t_indices t)))%list.

(** table.go:102-107 *)
Definition enc_schema (s : schema) : json :=
  JObj (om_str "author" (s_author s)
        ++ om_str "name" (s_name s)
        ++ om_str "version" (s_version s)
        ++ om_arr "tables" (map enc_table (s_tables s)))%list.

(** table.go:161-166 ToJson: normalizes in place, then encodes *)
Definition to_json (sortf : list table -> list table) (s : schema) : option json :=
  match normalize sortf s with
  | (s', None) => Some (enc_schema s')
  | (_, Some _) => None
  end.

(** ** Decoding *)

(** [None]: json.Unmarshal returns an error *)
Definition dec_str (old : string) (j : json) : option string :=
  match j with JStr s => Some s | JNull => Some old | _ => None end.
Definition dec_bool (old : bool) (j : json) : option bool :=
  match j with JBool b => Some b | JNull => Some old | _ => None end.
(** strconv.ParseUint and the overflow check against uint16 *)
Definition dec_u16 (old : N) (j : json) : option N :=
  match j with
  | JNum lit => match digits_to_N lit with
                | Some n => if N.ltb n 65536 then Some n else None
                | None => None
                end
  | JNull => Some old
  | _ => None
  end.
Fixpoint dec_list {A} (f : json -> option A) (l : list json) : option (list A) :=
  match l with
  | [] => Some []
  | j :: l' => match f j, dec_list f l' with
               | Some a, Some r => Some (a :: r)
               | _, _ => None
               end
  end.
Definition dec_arr {A} (f : json -> option A) (j : json) : option (list A) :=
  match j with JArr l => dec_list f l | JNull => Some [] | _ => None end.
Definition dec_string_elem (j : json) : option string :=
  match j with JStr s => Some s | JNull => Some "" | _ => None end.

(** struct fields are matched by exact name or else ignoring case *)
Definition key_is (field key : string) : bool := String.eqb (to_lower field) (to_lower key).

(** members are processed in order, starting from the zero value *)
Fixpoint dec_members {A} (f : A -> string -> json -> option A) (acc : A)
  (l : list (string * json)) : option A :=
  match l with
  | [] => Some acc
  | (k, j) :: l' => match f acc k j with
                    | Some acc' => dec_members f acc' l'
                    | None => None
                    end
  end.
Definition dec_obj {A} (f : A -> string -> json -> option A) (zero : A) (j : json) : option A :=
  match j with JObj l => dec_members f zero l | _ => None end.

Definition ref_member (r : reference) (k : string) (j : json) : option reference :=
  if key_is "table" k then option_map (fun x => mkRef x (ref_column r) (ref_rel r)) (dec_str (ref_table r) j)
  else if key_is "column" k then option_map (fun x => mkRef (ref_table r) x (ref_rel r)) (dec_str (ref_column r) j)
  else if key_is "relationship" k then option_map (fun x => mkRef (ref_table r) (ref_column r) x) (dec_str (ref_rel r) j)
  else Some r.
Definition dec_ref (j : json) : option (option reference) :=
  match j with
  | JNull => Some None
  | _ => option_map Some (dec_obj ref_member (mkRef "" "" "") j)
  end.

Definition zero_col : column := mkCol "" "" "" 0 0 false false false false "" "" [] None.

Definition col_member (c : column) (k : string) (j : json) : option column :=
  let '(mkCol n t d sz sc nn pk uq ai df ou vs rf) := c in
  if key_is "name" k then option_map (fun x => mkCol x t d sz sc nn pk uq ai df ou vs rf) (dec_str n j)
  else if key_is "type" k then option_map (fun x => mkCol n x d sz sc nn pk uq ai df ou vs rf) (dec_str t j)
  else if key_is "desc" k then option_map (fun x => mkCol n t x sz sc nn pk uq ai df ou vs rf) (dec_str d j)
  else if key_is "size" k then option_map (fun x => mkCol n t d x sc nn pk uq ai df ou vs rf) (dec_u16 sz j)
  else if key_is "scale" k then option_map (fun x => mkCol n t d sz x nn pk uq ai df ou vs rf) (dec_u16 sc j)
  else if key_is "notnull" k then option_map (fun x => mkCol n t d sz sc x pk uq ai df ou vs rf) (dec_bool nn j)
  else if key_is "pk" k then option_map (fun x => mkCol n t d sz sc nn x uq ai df ou vs rf) (dec_bool pk j)
  else if key_is "unique" k then option_map (fun x => mkCol n t d sz sc nn pk x ai df ou vs rf) (dec_bool uq j)
  else if key_is "autoinc" k then option_map (fun x => mkCol n t d sz sc nn pk uq x df ou vs rf) (dec_bool ai j)
  else if key_is "default" k then option_map (fun x => mkCol n t d sz sc nn pk uq ai x ou vs rf) (dec_str df j)
  else if key_is "onupdate" k then option_map (fun x => mkCol n t d sz sc nn pk uq ai df x vs rf) (dec_str ou j)
  else if key_is "values" k then option_map (fun x => mkCol n t d sz sc nn pk uq ai df ou x rf) (dec_arr dec_string_elem j)
  else if key_is "ref" k then option_map (fun x => mkCol n t d sz sc nn pk uq ai df ou vs x) (dec_ref j)
  else Some c.
Definition dec_column (j : json) : option column := dec_obj col_member zero_col j.

Definition idx_member (i : index) (k : string) (j : json) : option index :=
  if key_is "name" k then option_map (fun x => mkIdx x (ix_cols i)) (dec_str (ix_name i) j)
  else if key_is "columns" k then option_map (fun x => mkIdx (ix_name i) x) (dec_arr dec_string_elem j)
  else Some i.
Definition dec_index (j : json) : option index := dec_obj idx_member (mkIdx "" []) j.

Definition tbl_member (t : table) (k : string) (j : json) : option table :=
  let '(mkTable n cs d g cl ix) := t in
  if key_is "name" k then option_map (fun x => mkTable x cs d g cl ix) (dec_str n j)
  else if key_is "columns" k then option_map (fun x => mkTable n x d g cl ix) (dec_arr dec_column j)
  else if key_is "desc" k then option_map (fun x => mkTable n cs x g cl ix) (dec_str d j)
  else if key_is "group" k then option_map (fun x => mkTable n cs d x cl ix) (dec_str g j)
  else if key_is "className" k then option_map (fun x => mkTable n cs d g x ix) (dec_str cl j)
  else if key_is "indices" k then option_map (fun x => mkTable n cs d g cl x) (dec_arr dec_index j)
  else Some t.
Definition dec_table (j : json) : option table := dec_obj tbl_member (mkTable "" [] "" "" "" []) j.

Definition sch_member (s : schema) (k : string) (j : json) : option schema :=
  let '(mkSchema a n v ts) := s in
  if key_is "author" k then option_map (fun x => mkSchema x n v ts) (dec_str a j)
  else if key_is "name" k then option_map (fun x => mkSchema a x v ts) (dec_str n j)
  else if key_is "version" k then option_map (fun x => mkSchema a n x ts) (dec_str v j)
  else if key_is "tables" k then option_map (fun x => mkSchema a n v x) (dec_arr dec_table j)
  else Some s.

(** table.go:176-178 FromJson into a zero Schema, which null leaves as it is *)
Definition from_json (j : json) : option schema :=
  match j with
  | JNull => Some (mkSchema "" "" "" [])
  | _ => dec_obj sch_member (mkSchema "" "" "" []) j
  end.

(** io.go:8-24 LoadSchema, given the decoded text of the file; [None]: an error is returned *)
Definition load_schema (sortf : list table -> list table) (filename_ok : bool) (j : json)
  : option schema :=
  if filename_ok then option_map (load_schema_decoded sortf) (from_json j) else None.
