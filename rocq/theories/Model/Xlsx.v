(** Model of /repo/format/xlsx: constants.go, exporter.go, importer.go.

    A workbook is the list of its sheets in file order; a sheet is its name and rows; a row is
    the list of the texts of its cells (Cell.Value). Fonts, borders, colours, column widths and
    panes (exporter.go:62-65, 76-127, 134-163) are left out: no cell text depends on them.
    github.com/tealeg/xlsx itself is not modelled: AddSheet is known to refuse a name that is
    already used, its other rules are the argument [name_ok]; saving and opening a file is the
    relation [reads_as] of Spec/XlsxSpec.v. *)
From Coq Require Import String Ascii List NArith Bool.
From Verif.Model Require Import GoString Util Octopus Common.
Import ListNotations.
Local Open Scope string_scope.

Notation row := (list string) (only parsing).
Notation sheet := (string * list (list string))%type (only parsing).
Notation workbook := (list (string * list (list string))) (only parsing).

(** ** exporter.go *)

(** exporter.go:61-74 fillMetaSheet *)
Definition meta_rows (s : schema) : list row :=
  [["author"; s_author s]; ["name"; s_name s]; ["version"; s_version s]].

(** exporter.go:257-271 getColumnAttributes; line 267 writes the default value *)
Definition column_attributes (c : column) : list string :=
  let default_ := "default=" ++ c_default c in
  let on_update := "onUpdate=" ++ c_default c in
  ((if c_autoinc c then ["autoInc"] else []) ++
   (if String.eqb (c_default c) "" then [] else [default_]) ++
   (if String.eqb (c_onupdate c) "" then [] else [on_update]))%list.

(** exporter.go:273-278 getColumnReference *)
Definition column_reference (c : column) : string :=
  match c_ref c with
  | Some r => ref_table r ++ "." ++ ref_column r
  | None => ""
  end.

(** exporter.go:193-218, one column *)
Definition column_row (use_null : bool) (c : column) : row :=
  [column_reference c;
   c_name c;
   col_format c;
   bool_to_string (c_pk c) "P" (bool_to_string (c_uq c) "U" "");
   if use_null then bool_to_string (negb (c_notnull c)) "O" ""
   else bool_to_string (c_notnull c) "O" "";
   join ", " (column_attributes c);
   trim_space (c_desc c)].

(** exporter.go:221-231, one index *)
Definition index_rows (i : index) : list row :=
  map (fun col => [ix_name i; col; ""; "I"]) (ix_cols i).

(** exporter.go:186-190, first row of a table *)
Definition table_row (t : table) : row :=
  [t_name t; ""; "table"; ""; "";
   if String.eqb (t_class t) "" then "" else "class=" ++ t_class t;
   trim_space (t_desc t)].

(** exporter.go:180-237, loop over all tables of the schema; [i] is the position of the first
    table of [ts], [n] the number of all tables *)
Fixpoint tables_rows (use_null : bool) (group : string) (n i : nat) (ts : list table) : list row :=
  match ts with
  | [] => []
  | t :: ts' =>
      ((if String.eqb (t_group t) group
        then table_row t :: map (column_row use_null) (t_cols t)
             ++ flat_map index_rows (t_indices t)
             ++ (if Nat.ltb i (n - 1) then [[]] else [])
        else [])
       ++ tables_rows use_null group n (S i) ts')%list
  end.

(** exporter.go:165-177 *)
Definition header_row (use_null : bool) : row :=
  ["table/ref."; "column"; "type"; "key"; if use_null then "nullable" else "not null";
   "attributes"; "description"].

(** exporter.go:129-240 fillGroupSheet *)
Definition group_rows (use_null : bool) (s : schema) (group : string) : list row :=
  header_row use_null :: tables_rows use_null group (length (s_tables s)) 0 (s_tables s).

(** exporter.go:32-35 *)
Definition sheet_name (group : string) : string := if String.eqb group "" then "Common" else group.

(** xlsx.File.AddSheet as used at exporter.go:22, 36; [None] is the error *)
Definition add_sheet (name_ok : string -> bool) (wb : workbook) (sh : sheet) : option workbook :=
  if str_in (fst sh) (map fst wb) || negb (name_ok (fst sh)) then None else Some (wb ++ [sh])%list.

(** exporter.go:31-56 *)
Fixpoint add_group_sheets (name_ok : string -> bool) (use_null : bool) (s : schema)
         (gs : list string) (wb : workbook) : option workbook :=
  match gs with
  | [] => Some wb
  | g :: gs' =>
      match add_sheet name_ok wb (sheet_name g, group_rows use_null s g) with
      | None => None
      | Some wb' => add_group_sheets name_ok use_null s gs' wb'
      end
  end.

(** exporter.go:20-59 Export, up to file.Save *)
Definition export_xlsx (name_ok : string -> bool) (use_null : bool) (s : schema) : option workbook :=
  match add_sheet name_ok [] ("Meta", meta_rows s) with
  | None => None
  | Some wb => add_group_sheets name_ok use_null s (groups s) wb
  end.

(** ** importer.go *)

(** importer.go:235-250 getCell, getCellValue *)
Definition get_cell_value (r : row) (i : nat) : string := nth i r "".

(** importer.go:180-196 parseAttributes; newest assignment first *)
Definition parse_attributes (value : string) : list (string * string) :=
  fold_left (fun m attr =>
    match split_once "=" (trim_space attr) with
    | (key, Some v) => (key, v) :: m
    | (key, None) => (key, "true") :: m
    end) (split_char "," value) [].

(** reading a Go map[string]string: the empty string if the key is absent *)
Definition attr_get (m : list (string * string)) (k : string) : string :=
  match alist_find m k with Some v => v | None => "" end.

(** importer.go:207-216; octopus/column.go:12-14 *)
Definition relationship_of (tbl : string) : string :=
  match tbl with
  | String c _ => if Ascii.eqb c ">" then "n:1"
                  else if Ascii.eqb c "<" then "1:n"
                  else if Ascii.eqb c "-" then "1:1"
                  else "n:1"
  | EmptyString => "n:1"
  end.

(** importer.go:198-226 parseReference *)
Definition parse_reference (s : string) : option reference :=
  if String.eqb s "" then None
  else match split_char "." s with
       | [tbl; col] =>
           if String.eqb tbl "" || String.eqb col "" then None
           else Some (mkRef tbl col (relationship_of tbl))
       | _ => None
       end.

(** octopus/table.go:16-18, 29-33, 83-85: AddColumn, AddIndex, Index.AddColumn. The index found
    by IndexByName is changed in place: it is the first one of that name. *)
Definition add_column (t : table) (c : column) : table := with_cols t (t_cols t ++ [c])%list.
Definition with_indices (t : table) (ixs : list index) : table :=
  mkTable (t_name t) (t_cols t) (t_desc t) (t_group t) (t_class t) ixs.
Fixpoint index_add_column (ixs : list index) (name col : string) : list index :=
  match ixs with
  | [] => []
  | i :: ixs' => if String.eqb (ix_name i) name then mkIdx name (ix_cols i ++ [col])%list :: ixs'
                 else i :: index_add_column ixs' name col
  end.
(** importer.go:146-151 *)
Definition add_index_column (t : table) (name col : string) : table :=
  match index_by_name (t_indices t) name with
  | Some _ => with_indices t (index_add_column (t_indices t) name col)
  | None => with_indices t (t_indices t ++ [mkIdx name [col]])%list
  end.

(** importer.go:142, 153-169: the column described by a row *)
Definition read_column (use_not_null : bool) (r : row) : column :=
  let cell i := trim_space (get_cell_value r i) in
  let '(ty, size, scale) := parse_type (cell 2) in
  let attrs := parse_attributes (cell 5) in
  mkCol (cell 1) ty (cell 6) size scale
        (if use_not_null then negb (String.eqb (cell 4) "") else String.eqb (cell 4) "")
        (String.eqb (cell 3) "P") (String.eqb (cell 3) "U")
        (String.eqb (attr_get attrs "autoInc") "true")
        (attr_get attrs "default") (attr_get attrs "onUpdate") []
        (parse_reference (cell 0)).

(** importer.go:90-171, the rows after the header; [i] is the row number. [inr i] is the error
    "row[i]: table name is empty". *)
Fixpoint read_rows (group : string) (use_not_null : bool) (i : nat) (rows : list row)
         (tables : list table) (last : option table) : list table + nat :=
  let finalized := (tables ++ match last with Some t => [t] | None => [] end)%list in
  match rows with
  | [] => inl finalized
  | r :: rows' =>
      let cell i := trim_space (get_cell_value r i) in
      if String.eqb (cell 2) "table" then
        if String.eqb (cell 0) "" then inr i
        else read_rows group use_not_null (S i) rows' finalized
               (Some (mkTable (cell 0) [] (cell 6) group
                              (attr_get (parse_attributes (cell 5)) "class") []))
      else match last with
      | None => read_rows group use_not_null (S i) rows' tables last
      | Some t =>
          if String.eqb (cell 1) "" then read_rows group use_not_null (S i) rows' tables last
          else if String.eqb (cell 3) "I"
          then read_rows group use_not_null (S i) rows' tables
                 (Some (add_index_column t (cell 0) (cell 1)))
          else read_rows group use_not_null (S i) rows' tables
                 (Some (add_column t (read_column use_not_null r)))
      end
  end.

(** importer.go:85-178 readGroupSheet *)
Definition read_group_sheet (group : string) (rows : list row) : list table + nat :=
  match rows with
  | [] => inl []
  | h :: rows' =>
      read_rows group (String.eqb (trim_space (get_cell_value h 4)) "not null") 1 rows' [] None
  end.

(** importer.go:68-83 readMetaSheet: a later row wins; a row without cells is skipped *)
Definition read_meta_sheet (rows : list row) : list (string * string) :=
  fold_left (fun m r => match r with
                        | [] => m
                        | k :: _ => (k, get_cell_value r 1) :: m
                        end) rows [].

(** importer.go:28-35: the last sheet of a name wins *)
Definition meta_sheet (wb : workbook) : option (list row) := alist_find (rev wb) "Meta".
Definition group_names (wb : workbook) : sset :=
  fold_left (fun ks sh => if String.eqb (fst sh) "Meta" then ks else ss_add ks (fst sh)) wb [].
Definition group_sheet (wb : workbook) (g : string) : list row :=
  match alist_find (rev wb) g with Some rows => rows | None => [] end.

(** importer.go:52-58 *)
Fixpoint read_sheets (wb : workbook) (gs : list string) (acc : list table) : list table + nat :=
  match gs with
  | [] => inl acc
  | g :: gs' =>
      match read_group_sheet g (group_sheet wb g) with
      | inr e => inr e
      | inl ts => read_sheets wb gs' (acc ++ ts)%list
      end
  end.

(** importer.go:20-66 Import and toSchema on an opened workbook; [ord] is the iteration order
    of the map sheetsByGroup *)
Definition import_xlsx (ord : list string -> list string) (wb : workbook) : schema + nat :=
  let meta := match meta_sheet wb with Some rows => read_meta_sheet rows | None => [] end in
  match read_sheets wb (ord (group_names wb)) [] with
  | inr e => inr e
  | inl ts => inl (mkSchema (attr_get meta "author") (attr_get meta "name") (attr_get meta "version") ts)
  end.
