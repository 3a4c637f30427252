(** What the Excel format is expected to keep, written independently of the exporter and the
    importer (docs/xlsx.md). *)
From Coq Require Import String Ascii List NArith Bool.
From Verif.Model Require Import GoString Octopus.
From Verif.Spec Require Import Text OctopusSpec.
Import ListNotations.
Local Open Scope string_scope.

(** ** Files *)

(** The cells of a saved file, read back: every cell has the text that was written to it; cells
    and rows that were not written are either absent or empty. *)
Definition same_sheet (rows rows' : list (list string)) : Prop :=
  forall i j, nth j (nth i rows []) "" = nth j (nth i rows' []) "".
Definition reads_as (wb wb' : list (string * list (list string))) : Prop :=
  Forall2 (fun sh sh' => fst sh = fst sh' /\ same_sheet (snd sh) (snd sh')) wb wb'.

(** ** Texts that survive *)

(** white space at the ends of a text *)
Definition starts_blank (s : string) : Prop := exists c r, s = String c r /\ is_space c = true.
Definition ends_blank (s : string) : Prop := exists r c, s = r ++ String c "" /\ is_space c = true.
Definition trimmed (s : string) : Prop := ~ starts_blank s /\ ~ ends_blank s.

(** a value in an attributes cell: no comma, no white space at the end *)
Definition attr_value (v : string) : Prop := ~ char_in "," v /\ ~ ends_blank v.

(** a type text that can be read again: see C04 *)
Definition readable_type (c : column) : Prop :=
  In (c_type c) octopus_types /\ (c_size c < 65536)%N /\ (c_scale c < 65536)%N /\
  ((c_size c = 0%N /\ c_scale c = 0%N) \/
   (c_size c <> 0%N /\ all_chars (fun x => is_letter x = true) (c_type c))).

(** a reference that the cell "table.column" can express *)
Definition plain_reference (r : reference) : Prop :=
  ref_table r <> "" /\ ref_column r <> "" /\
  ~ char_in "." (ref_table r) /\ ~ char_in "." (ref_column r) /\
  ~ starts_blank (ref_table r) /\ ~ ends_blank (ref_column r) /\
  (forall x, ref_table r <> "<" ++ x) /\ (forall x, ref_table r <> "-" ++ x) /\
  ref_rel r = "n:1".

Definition plain_column (c : column) : Prop :=
  c_name c <> "" /\ trimmed (c_name c) /\
  readable_type c /\
  trimmed (c_desc c) /\
  (c_pk c = true -> c_uq c = false) /\
  attr_value (c_default c) /\
  (c_onupdate c = "" \/ c_onupdate c = c_default c) /\
  c_values c = [] /\
  (forall r, c_ref c = Some r -> plain_reference r).

Definition plain_index (i : index) : Prop :=
  trimmed (ix_name i) /\ ix_cols i <> [] /\
  Forall (fun n => n <> "" /\ trimmed n) (ix_cols i).

Definition plain_table (t : table) : Prop :=
  t_name t <> "" /\ trimmed (t_name t) /\ trimmed (t_desc t) /\ attr_value (t_class t) /\
  Forall plain_column (t_cols t) /\
  Forall plain_index (t_indices t) /\ NoDup (map ix_name (t_indices t)).

(** ** Groups *)

(** docs/xlsx.md: "Each sheet name represents table group name. Common is used if not set." *)
Definition documented_sheet (group : string) : string :=
  match group with "" => "Common" | _ => group end.

(** every group has a sheet of its own, with a name Excel allows *)
Definition sheets_possible (name_ok : string -> bool) (s : schema) : Prop :=
  name_ok "Meta" = true /\
  (forall t, In t (s_tables s) ->
     documented_sheet (t_group t) <> "Meta" /\ name_ok (documented_sheet (t_group t)) = true) /\
  (forall t t', In t (s_tables s) -> In t' (s_tables s) ->
     documented_sheet (t_group t) = documented_sheet (t_group t') -> t_group t = t_group t').

Definition in_group (g : string) (t : table) : table :=
  mkTable (t_name t) (t_cols t) (t_desc t) g (t_class t) (t_indices t).

(** the tables on a sheet, in order *)
Definition tables_on (sheet : string) (s : schema) : list table :=
  filter (fun t => String.eqb (documented_sheet (t_group t)) sheet) (s_tables s).

(** ** Documented cells (docs/xlsx.md, table/ref. and attributes columns) *)

Inductive ref_symbol := ManyToOne | OneToMany | OneToOne.
Definition symbol_char (y : ref_symbol) : ascii :=
  match y with ManyToOne => ">" | OneToMany => "<" | OneToOne => "-" end.
Definition symbol_rel (y : ref_symbol) : string :=
  match y with ManyToOne => "n:1" | OneToMany => "1:n" | OneToOne => "1:1" end.

Inductive doc_attr := DAutoinc | DDefault (v : string) | DOnUpdate (v : string) | DClass (v : string).
(** [autoinc] is the word used for the auto-increment attribute *)
Definition doc_attr_text (autoinc : string) (a : doc_attr) : string :=
  match a with
  | DAutoinc => autoinc
  | DDefault v => "default=" ++ v
  | DOnUpdate v => "onUpdate=" ++ v
  | DClass v => "class=" ++ v
  end.
Definition doc_attr_value (a : doc_attr) : string :=
  match a with DAutoinc => "" | DDefault v | DOnUpdate v | DClass v => v end.

Definition blank (s : string) : Prop := all_chars (fun c => is_space c = true) s.

(** the attributes cell: separated by commas, blanks around them allowed *)
Inductive doc_cell (autoinc : string) : list doc_attr -> string -> Prop :=
| dc_none : forall b, blank b -> doc_cell autoinc [] b
| dc_one : forall a l r, blank l -> blank r ->
    doc_cell autoinc [a] (l ++ doc_attr_text autoinc a ++ r)
| dc_more : forall a l r rest cell, blank l -> blank r -> doc_cell autoinc rest cell ->
    doc_cell autoinc (a :: rest) (l ++ doc_attr_text autoinc a ++ r ++ "," ++ cell).

(** values without commas or trailing blanks, and no attribute with two different values *)
Definition doc_attrs_ok (l : list doc_attr) : Prop :=
  Forall (fun a => attr_value (doc_attr_value a)) l /\
  (forall v w, In (DDefault v) l -> In (DDefault w) l -> v = w) /\
  (forall v w, In (DOnUpdate v) l -> In (DOnUpdate w) l -> v = w) /\
  (forall v w, In (DClass v) l -> In (DClass w) l -> v = w).
