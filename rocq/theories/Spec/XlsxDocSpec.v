(** Workbooks as /repo/docs/xlsx.md describes them (C94) *)
From Coq Require Import String Ascii List NArith Bool.
From Verif.Model Require Import GoString Octopus.
From Verif.Spec Require Import Text OctopusSpec XlsxSpec.
Import ListNotations.
Local Open Scope string_scope.

(** How auto-increment columns and references are written. The documentation has "autoinc" and a symbol for the
    relationship; the working spelling, see C51 and C52, is "autoInc" and no symbol for n:1. *)
Inductive spelling := Documented | Working.
Definition autoinc_word (sp : spelling) : string := match sp with Documented => "autoinc" | Working => "autoInc" end.
Definition reference_cell (sp : spelling) (r : reference) (text : string) : Prop :=
  match sp with
  | Documented => exists y, text = String (symbol_char y) (ref_table r ++ "." ++ ref_column r) /\ ref_rel r = symbol_rel y
  | Working => text = ref_table r ++ "." ++ ref_column r /\ ref_rel r = "n:1"
  end.
(** names that can be part of a reference *)
Definition reference_names (r : reference) : Prop :=
  ref_table r <> "" /\ ref_column r <> "" /\ ~ char_in "." (ref_table r) /\ ~ char_in "." (ref_column r) /\
  ~ starts_blank (ref_table r) /\ ~ ends_blank (ref_column r) /\
  forall y x, ref_table r <> String (symbol_char y) x.

(** the cell of a row, blanks around the text allowed; cells that are not there are empty *)
Definition cell_is (row : list string) (i : nat) (text : string) : Prop :=
  trimmed text /\ exists l r, blank l /\ blank r /\ nth i row "" = l ++ text ++ r.
Definition blank_row (row : list string) : Prop := forall i, blank (nth i row "").

(** "varchar", "varchar(40)", "decimal(5,2)" *)
Inductive type_text : string -> string -> N -> N -> Prop :=
| tt_plain : forall ty, ty <> "" -> ty <> "table" -> all_chars (fun c => is_letter c = true \/ is_digit c = true) ty ->
    type_text ty ty 0 0
| tt_size : forall ty n, ty <> "" -> all_chars (fun c => is_letter c = true) ty -> (n < 65536)%N ->
    type_text (ty ++ "(" ++ itoa n ++ ")") ty n 0
| tt_scale : forall ty n m, ty <> "" -> all_chars (fun c => is_letter c = true) ty -> (n < 65536)%N -> (m < 65536)%N ->
    type_text (ty ++ "(" ++ itoa n ++ "," ++ itoa m ++ ")") ty n m.

Section Rows.
Variable sp : spelling.

Definition attributes_are (row : list string) (l : list doc_attr) : Prop :=
  doc_cell (autoinc_word sp) l (nth 5 row "") /\ doc_attrs_ok l.
(** the value of an attribute, "" if it is not given *)
Definition attribute_value (make : string -> doc_attr) (l : list doc_attr) (v : string) : Prop :=
  In (make v) l \/ v = "" /\ forall x, ~ In (make x) l.

(** [not_null]: the heading of the fifth column is "not null" and not "nullable" *)
Definition doc_column_row (not_null : bool) (row : list string) (c : column) : Prop :=
  c_name c <> "" /\ cell_is row 1 (c_name c) /\
  (exists text, cell_is row 2 text /\ type_text text (c_type c) (c_size c) (c_scale c)) /\
  (cell_is row 3 "P" /\ c_pk c = true /\ c_uq c = false \/ cell_is row 3 "U" /\ c_pk c = false /\ c_uq c = true \/
   cell_is row 3 "" /\ c_pk c = false /\ c_uq c = false) /\
  (cell_is row 4 "O" /\ c_notnull c = not_null \/ cell_is row 4 "" /\ c_notnull c = negb not_null) /\
  (exists l, attributes_are row l /\ (c_autoinc c = true <-> In DAutoinc l) /\
     attribute_value DDefault l (c_default c) /\ attribute_value DOnUpdate l (c_onupdate c)) /\
  cell_is row 6 (c_desc c) /\
  (cell_is row 0 "" /\ c_ref c = None \/
   exists r text, c_ref c = Some r /\ reference_names r /\ reference_cell sp r text /\ cell_is row 0 text) /\
  c_values c = [].
Definition doc_index_row (row : list string) (name col : string) : Prop :=
  name <> "" /\ col <> "" /\ cell_is row 0 name /\ cell_is row 1 col /\ cell_is row 2 "" /\ cell_is row 3 "I".

(** the rows of a table, with its columns and the columns of its indices *)
Inductive doc_rows (not_null : bool) : list (list string) -> list column -> list (string * string) -> Prop :=
| dr_end : doc_rows not_null [] [] []
| dr_blank : forall row rows cs ps, blank_row row -> doc_rows not_null rows cs ps -> doc_rows not_null (row :: rows) cs ps
| dr_column : forall row c rows cs ps, doc_column_row not_null row c -> doc_rows not_null rows cs ps ->
    doc_rows not_null (row :: rows) (c :: cs) ps
| dr_index : forall row name col rows cs ps, doc_index_row row name col -> doc_rows not_null rows cs ps ->
    doc_rows not_null (row :: rows) cs ((name, col) :: ps).

(** "same index names will be combined into a single index": in the order of their first rows *)
Definition combined (ps : list (string * string)) (ixs : list index) : Prop :=
  map ix_name ixs = rev (nodup string_dec (rev (map fst ps))) /\
  forall i, In i ixs -> ix_cols i = map snd (filter (fun p => String.eqb (fst p) (ix_name i)) ps).

Definition doc_table (not_null : bool) (rows : list (list string)) (t : table) : Prop :=
  exists first rest ps l, rows = first :: rest /\
    t_name t <> "" /\ cell_is first 0 (t_name t) /\ cell_is first 1 "" /\ cell_is first 2 "table" /\
    cell_is first 3 "" /\ cell_is first 4 "" /\
    attributes_are first l /\ attribute_value DClass l (t_class t) /\ cell_is first 6 (t_desc t) /\
    doc_rows not_null rest (t_cols t) ps /\ combined ps (t_indices t).

(** "Each sheet name represents table group name." *)
Definition doc_sheet (sheet : string * list (list string)) (ts : list table) : Prop :=
  exists heading not_null blanks blocks,
    snd sheet = heading :: (blanks ++ concat blocks)%list /\
    cell_is heading 0 "table/ref." /\ cell_is heading 1 "column" /\ cell_is heading 2 "type" /\ cell_is heading 3 "key" /\
    cell_is heading 4 (if not_null : bool then "not null" else "nullable") /\
    cell_is heading 5 "attributes" /\ cell_is heading 6 "description" /\
    Forall blank_row blanks /\ Forall2 (doc_table not_null) blocks ts /\ Forall (fun t => t_group t = fst sheet) ts.
End Rows.

(** the sheet with the keys [author], [name] and [version] *)
Definition meta_value (rows : list (list string)) (key value : string) : Prop :=
  (exists row, In row rows /\ nth 0 row "" = key) /\ (forall row, In row rows -> nth 0 row "" = key -> nth 1 row "" = value) \/
  value = "" /\ forall row, In row rows -> nth 0 row "" <> key.
Definition doc_meta (rows : list (list string)) (s : schema) : Prop :=
  meta_value rows "author" (s_author s) /\ meta_value rows "name" (s_name s) /\ meta_value rows "version" (s_version s).

Definition doc_workbook (sp : spelling) (wb : list (string * list (list string))) (s : schema) : Prop :=
  exists before rows after ts1 ts2,
    wb = (before ++ ("Meta", rows) :: after)%list /\ NoDup (map fst wb) /\ doc_meta rows s /\
    Forall2 (doc_sheet sp) before ts1 /\ Forall2 (doc_sheet sp) after ts2 /\ s_tables s = (concat ts1 ++ concat ts2)%list.
