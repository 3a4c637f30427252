(** Model of /repo/format/diff: changeset.go, diff.go *)
From Coq Require Import String Ascii List NArith Bool.
From Verif.Model Require Import GoString Util Octopus DiffCore.
Import ListNotations.
Local Open Scope string_scope.

(** changeset.go:68-207. BeforeColumn/AfterColumn of AddColumn are always nil, the
    ConstraintName of UpdatePrimaryKey is never set. *)
Inductive change :=
| CreateTable (t : table)
| DropTable (t : table)
| RenameTable (old new : table)
| UpdatePrimaryKey (old new : table)
| DropUniqueConstraint (name : string) (t : table)
| CreateUniqueConstraint (name : string) (t : table)
| SetTableComment (t : table)
| AddColumn (t : table) (c : column)
| DropColumn (t : table) (name : string)
| SetColumnComment (t : table) (c : column)
| ChangeColumnType (t : table) (old new : column)
| RenameColumn (t : table) (old new : column)
| SetNotNullConstraint (t : table) (c : column)
| SetAutoIncrement (t : table) (c : column)
| SetDefaultValue (t : table) (c : column).

(** the DepTable methods *)
Definition dep_table (ch : change) : table :=
  match ch with
  | CreateTable t | DropTable t => t
  | RenameTable old _ | UpdatePrimaryKey old _ => old
  | DropUniqueConstraint _ t | CreateUniqueConstraint _ t => t
  | SetTableComment t | AddColumn t _ | DropColumn t _ | SetColumnComment t _ => t
  | ChangeColumnType t _ _ | RenameColumn t _ _ => t
  | SetNotNullConstraint t _ | SetAutoIncrement t _ | SetDefaultValue t _ => t
  end.

(** changeset.go:56-64 *)
Record cset := mkCS { cs_id : string; cs_author : string; cs_changes : list change }.

(** diff.go:17-24 Option, without the two schemas *)
Record diff_option := mkDiffOption {
  do_filter : option (table -> bool);
  do_author : string;
  do_suffix : string;
  do_comments : bool
}.

(** one conditional change set of diffColumn/diffTable: bumpMinor, add, append *)
Definition emit (author : string) (b : bool) (ch : change) (st : list cset * ident) : list cset * ident :=
  if b then
    let id := bump_minor (snd st) in
    ((fst st ++ [mkCS (version id) author [ch]])%list, id)
  else st.

(** diff.go:276-324 diffColumn; it never returns an error *)
Definition diff_column (author : string) (comments : bool) (t : table) (id : ident) (c o : column)
  : list cset * ident :=
  let st := ([], id) in
  let st := emit author (negb (String.eqb (c_name c) (c_name o))) (RenameColumn t o c) st in
  let st := emit author (negb (String.eqb (c_type c) (c_type o)) || negb (N.eqb (c_size c) (c_size o))
                         || negb (N.eqb (c_scale c) (c_scale o))) (ChangeColumnType t o c) st in
  let st := emit author (comments && negb (String.eqb (c_desc c) (c_desc o))) (SetColumnComment t c) st in
  let st := emit author (negb (Bool.eqb (c_notnull c) (c_notnull o))) (SetNotNullConstraint t c) st in
  let st := emit author (negb (Bool.eqb (c_autoinc c) (c_autoinc o))) (SetAutoIncrement t c) st in
  emit author (negb (String.eqb (c_default c) (c_default o))) (SetDefaultValue t c) st.

(** diff.go:145-274 diffTable. [ord] is the iteration order of renamedColumnMap. *)
Definition diff_table (author : string) (comments : bool) (suffix : string)
  (ord : list (nat * (column * column)) -> list (nat * (column * column)))
  (id : ident) (t old : table) : option (list cset * ident) :=
  let '(css0, id0) :=
    emit author (comments && negb (String.eqb (t_desc t) (t_desc old))) (SetTableComment t) ([], id) in
  let removed0 := ss_new (map c_name (t_cols old)) in
  match scan_columns (fun id c o => Some (diff_column author comments t id c o))
          (t_cols old) (with_pos (t_cols t)) id0 removed0 with
  | None => None
  | Some (css1, id1, removed1, added) =>
      let '(renamed, removed2) :=
        find_renamed (column_name_map (t_cols old)) (fun a r => is_renamed a r (negb comments)) added removed1 in
      let uq := uq_name_set t in
      let old_uq := uq_name_set old in
      let unique_changed := negb (ss_equals uq old_uq) in
      let name := t_name t ++ suffix in
      let st := ((css0 ++ css1)%list, id1) in
      (* lines 208-217 *)
      let st := emit author (unique_changed && Nat.ltb 0 (ss_size old_uq)) (DropUniqueConstraint name old) st in
      (* lines 219-224 *)
      let st := fold_left (fun st n => emit author true (DropColumn t n) st) (ss_slice removed2) st in
      (* lines 226-231 *)
      let st := fold_left (fun st r => emit author true (RenameColumn t (snd (snd r)) (fst (snd r))) st)
                          (ord renamed) st in
      (* lines 233-252: the change set with the added columns is built, and the id is
         bumped, but it is not appended to changeSets *)
      let st := match not_renamed added renamed with
                | [] => st
                | _ => (fst st, bump_minor (snd st))
                end in
      (* lines 254-261 *)
      let st := emit author (negb (ss_equals (pk_name_set t) (pk_name_set old))) (UpdatePrimaryKey old t) st in
      (* lines 263-271 *)
      let st := emit author (unique_changed && Nat.ltb 0 (ss_size uq)) (CreateUniqueConstraint name t) st in
      Some st
  end.

(** diff.go:95-126, one renamed table *)
Definition rename_table_cs (author suffix : string) (id : ident) (nw old : table) : list cset * ident :=
  let css1 := if Nat.ltb 0 (ss_size (uq_name_set old))
              then [mkCS (version id) author [DropUniqueConstraint (t_name old ++ suffix) old]] else [] in
  let st := (css1, id) in
  let st := emit author true (RenameTable old nw) st in
  emit author (Nat.ltb 0 (ss_size (uq_name_set nw))) (CreateUniqueConstraint (t_name nw ++ suffix) nw) st.

(** diff.go:26-143 getDiff, the change sets of the result. [ordT] is the iteration order
    of renamedTableMap, [ordC i] that of renamedColumnMap in the comparison of the i-th
    table of the new schema. *)
Definition get_diff (ordT : list (nat * (table * table)) -> list (nat * (table * table)))
  (ordC : nat -> list (nat * (column * column)) -> list (nat * (column * column)))
  (o : diff_option) (from to : schema) : option (list cset) :=
  let author := choose_author (do_author o) to in
  diff_schemas
    (fun i id t old => diff_table author (do_comments o) (do_suffix o) (ordC i) id t old)
    (fun id _ old => mkCS (version id) author [DropTable old])
    (fun id nw old => rename_table_cs author (do_suffix o) id nw old)
    (fun id t => Some ([mkCS (version id) author [CreateTable t]], id))
    ordT (do_filter o) from to.
