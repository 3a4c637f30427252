(** How encoding/json maps an octopus v1 file to the structs of /repo/format/ojson
    (table.go:134-136 FromJson). Same simplifications as in Json.v. *)
From Coq Require Import String Ascii List NArith Bool.
From Verif.Model Require Import GoString Util Octopus Common Json JsonText Ojson.
Import ListNotations.
Local Open Scope string_scope.

(** column.go:9-12 *)
Definition v1_ref_member (r : v1_reference) (k : string) (j : json) : option v1_reference :=
  if key_is "table" k then option_map (fun x => mkV1Ref x (o_ref_column r)) (dec_str (o_ref_table r) j)
  else if key_is "column" k then option_map (fun x => mkV1Ref (o_ref_table r) x) (dec_str (o_ref_column r) j)
  else Some r.
Definition v1_dec_ref (j : json) : option (option v1_reference) :=
  match j with
  | JNull => Some None
  | _ => option_map Some (dec_obj v1_ref_member (mkV1Ref "" "") j)
  end.

(** column.go:14-26 *)
Definition v1_col_member (c : v1_column) (k : string) (j : json) : option v1_column :=
  let '(mkV1Col n t d sz sc nn pk uq ai df rf) := c in
  if key_is "name" k then option_map (fun x => mkV1Col x t d sz sc nn pk uq ai df rf) (dec_str n j)
  else if key_is "type" k then option_map (fun x => mkV1Col n x d sz sc nn pk uq ai df rf) (dec_str t j)
  else if key_is "description" k then option_map (fun x => mkV1Col n t x sz sc nn pk uq ai df rf) (dec_str d j)
  else if key_is "size" k then option_map (fun x => mkV1Col n t d x sc nn pk uq ai df rf) (dec_u16 sz j)
  else if key_is "scale" k then option_map (fun x => mkV1Col n t d sz x nn pk uq ai df rf) (dec_u16 sc j)
  else if key_is "notnull" k then option_map (fun x => mkV1Col n t d sz sc x pk uq ai df rf) (dec_bool nn j)
  else if key_is "pk" k then option_map (fun x => mkV1Col n t d sz sc nn x uq ai df rf) (dec_bool pk j)
  else if key_is "unique" k then option_map (fun x => mkV1Col n t d sz sc nn pk x ai df rf) (dec_bool uq j)
  else if key_is "autoinc" k then option_map (fun x => mkV1Col n t d sz sc nn pk uq x df rf) (dec_bool ai j)
  else if key_is "default" k then option_map (fun x => mkV1Col n t d sz sc nn pk uq ai x rf) (dec_str df j)
  else if key_is "ref" k then option_map (fun x => mkV1Col n t d sz sc nn pk uq ai df x) (v1_dec_ref j)
  else Some c.
Definition v1_dec_column (j : json) : option v1_column :=
  dec_obj v1_col_member (mkV1Col "" "" "" 0 0 false false false false "" None) j.

(** table.go:12-18 *)
Definition v1_tbl_member (t : v1_table) (k : string) (j : json) : option v1_table :=
  let '(mkV1Table n cs d g cl) := t in
  if key_is "name" k then option_map (fun x => mkV1Table x cs d g cl) (dec_str n j)
  else if key_is "columns" k then option_map (fun x => mkV1Table n x d g cl) (dec_arr v1_dec_column j)
  else if key_is "desc" k then option_map (fun x => mkV1Table n cs x g cl) (dec_str d j)
  else if key_is "group" k then option_map (fun x => mkV1Table n cs d x cl) (dec_str g j)
  else if key_is "className" k then option_map (fun x => mkV1Table n cs d g x) (dec_str cl j)
  else Some t.
Definition v1_dec_table (j : json) : option v1_table := dec_obj v1_tbl_member (mkV1Table "" [] "" "" "") j.

(** table.go:71-76 *)
Definition v1_sch_member (s : v1_schema) (k : string) (j : json) : option v1_schema :=
  let '(mkV1Schema a n v ts) := s in
  if key_is "author" k then option_map (fun x => mkV1Schema x n v ts) (dec_str a j)
  else if key_is "name" k then option_map (fun x => mkV1Schema a x v ts) (dec_str n j)
  else if key_is "version" k then option_map (fun x => mkV1Schema a n x ts) (dec_str v j)
  else if key_is "tables" k then option_map (fun x => mkV1Schema a n v x) (dec_arr v1_dec_table j)
  else Some s.
(** table.go:134-136 FromJson into a zero Schema *)
Definition v1_from_json (j : json) : option v1_schema :=
  match j with
  | JNull => Some (mkV1Schema "" "" "" [])
  | _ => dec_obj v1_sch_member (mkV1Schema "" "" "" []) j
  end.
