(** Properties of /repo/format/xlsx *)
From Coq Require Import String Ascii List NArith Bool Sorting.Permutation.
From Verif.Model Require Import GoString Util Octopus Common Xlsx.
From Verif.Spec Require Import Text OctopusSpec DiffSpec XlsxSpec.
From Verif.Proofs Require Import XlsxText XlsxProofs XlsxNull XlsxRound XlsxFacts XlsxWitnesses.
Import ListNotations.
Local Open Scope string_scope.

(** C33. Full statement: the conclusion for every valid schema. False (below); it holds for
    schemas whose texts fit the cells ([plain_table]) and whose groups can have a sheet each. A
    table without group comes back in group "Common". [name_ok] stands for the rules Excel has
    for sheet names, [ord] for the iteration order of the map of sheets. *)
Theorem C33_roundtrip_partial : forall name_ok use_null ord s,
  iteration_order ord -> sheets_possible name_ok s -> Forall plain_table (s_tables s) ->
  exists wb, export_xlsx name_ok use_null s = Some wb /\
  forall wb', reads_as wb wb' ->
  exists s', import_xlsx ord wb' = inl s' /\
    s_author s' = s_author s /\ s_name s' = s_name s /\ s_version s' = s_version s /\
    forall n, filter (fun t => String.eqb (t_group t) n) (s_tables s') =
              map (in_group n) (tables_on n s).
Proof. exact roundtrip. Qed.
Print Assumptions C33_roundtrip_partial.

Example C33_case :
  sheets_possible (fun _ => true) xl_schema /\ Forall plain_table (s_tables xl_schema) /\
  match export_xlsx (fun _ => true) false xl_schema with
  | Some wb => import_xlsx (@rev string) wb =
               inl (mkSchema "me" "db" "1" [xl_user; in_group "Common" xl_group])
  | None => False
  end.
Proof. split; [exact xl_possible|]. split; [exact xl_plain|]. vm_compute. reflexivity. Qed.

(** Enum values, sizes of types like int64, "unique" on a primary key, defaults with a comma,
    on-update values, relationships other than n:1 *)
Theorem C33_roundtrip_refuted : forall ord use_null c, iteration_order ord -> In c lossy_columns ->
  valid_schema (one_col_schema c) /\
  exists wb s', export_xlsx (fun _ => true) use_null (one_col_schema c) = Some wb /\
    import_xlsx ord wb = inl s' /\ s_tables s' <> s_tables (one_col_schema c).
Proof. exact lossy. Qed.
Print Assumptions C33_roundtrip_refuted.

(** No workbook whatsoever yields a column with values, so no valid enum or set column. *)
Theorem C33_values_never_read : forall ord wb s, import_xlsx ord wb = inl s ->
  forall c, In c (columns_of s) -> c_values c = [].
Proof. exact import_values. Qed.
Print Assumptions C33_values_never_read.

(** A schema with tables in group "" and in group "Common" cannot be exported at all. *)
Theorem C33_common_refuted : forall name_ok use_null s t t',
  In t (s_tables s) -> In t' (s_tables s) -> t_group t = "" -> t_group t' = "Common" ->
  export_xlsx name_ok use_null s = None.
Proof. exact clash_common. Qed.
Print Assumptions C33_common_refuted.

(** C34 *)
Theorem C34_null_option : forall name_ok s,
  (export_xlsx name_ok true s = None <-> export_xlsx name_ok false s = None) /\
  forall ord wb1 wb2 wb1' wb2',
    export_xlsx name_ok true s = Some wb1 -> export_xlsx name_ok false s = Some wb2 ->
    reads_as wb1 wb1' -> reads_as wb2 wb2' ->
    import_xlsx ord wb1' = import_xlsx ord wb2'.
Proof. exact null_option. Qed.
Print Assumptions C34_null_option.

Example C34_case :
  match export_xlsx (fun _ => true) true xl_schema, export_xlsx (fun _ => true) false xl_schema with
  | Some wb1, Some wb2 =>
      (map (fun sh => map (fun r => nth 4 r "") (snd sh)) wb1,
       map (fun sh => map (fun r => nth 4 r "") (snd sh)) wb2) =
      ([[""; ""; ""]; ["nullable"; ""; "O"; ""]; ["nullable"; ""; "O"; "O"; ""; ""; "O"; ""; ""]],
       [[""; ""; ""]; ["not null"; ""; ""; ""]; ["not null"; ""; ""; ""; "O"; "O"; ""; ""; ""]])
  | _, _ => False
  end.
Proof. vm_compute. reflexivity. Qed.

(** C35. Full statement: [c_onupdate c' = c_onupdate c]. The exporter writes the default value
    instead. *)
Theorem C35_attributes_partial : forall use_null c, attr_value (c_default c) ->
  let c' := read_column (negb use_null) (column_row use_null c) in
  c_autoinc c' = c_autoinc c /\ c_default c' = c_default c /\
  (c_onupdate c = "" -> c_onupdate c' = "") /\ (c_onupdate c <> "" -> c_onupdate c' = c_default c).
Proof. exact column_attributes_read. Qed.
Print Assumptions C35_attributes_partial.

Theorem C35_on_update_refuted : forall use_null, valid_column updated_at /\
  attr_value (c_default updated_at) /\ attr_value (c_onupdate updated_at) /\
  c_onupdate (read_column (negb use_null) (column_row use_null updated_at)) <> c_onupdate updated_at.
Proof. exact onupdate_lost. Qed.
Print Assumptions C35_on_update_refuted.

Example C35_case :
  let c := mkCol "n" "int64" "" 0 0 true true false true "a=b c" "fn::NOW" [] None in
  attr_value (c_default c) /\
  nth 5 (column_row false c) "" = "autoInc, default=a=b c, onUpdate=a=b c" /\
  c_default (read_column true (column_row false c)) = "a=b c".
Proof. split; [apply attr_fix; vm_compute; reflexivity|]. split; vm_compute; reflexivity. Qed.

(** C51. Full statement: with each symbol the reference found is the documented one. The symbol
    stays in the table name, so that only the relationship and the column are right. *)
Theorem C51_symbols_partial : forall y t c nn rest,
  t <> "" -> c <> "" -> ~ char_in "." t -> ~ char_in "." c -> ~ ends_blank c ->
  c_ref (read_column nn (String (symbol_char y) (t ++ "." ++ c) :: rest)) =
  Some (mkRef (String (symbol_char y) t) c (symbol_rel y)).
Proof. exact symbol_read. Qed.
Print Assumptions C51_symbols_partial.

(** The undocumented form without symbol works. *)
Theorem C51_no_symbol : forall t c nn rest s,
  plain_reference (mkRef t c "n:1") -> has_column s t c ->
  exists rf tbl col, c_ref (read_column nn ((t ++ "." ++ c) :: rest)) = Some rf /\ ref_rel rf = "n:1" /\
    find_reference s rf = Some (tbl, col) /\ t_name tbl = t /\ c_name col = c.
Proof. exact plain_read. Qed.
Print Assumptions C51_no_symbol.

Theorem C51_symbols_refuted : exists y t c s, has_column s t c /\
  forall nn rest, exists rf,
    c_ref (read_column nn (String (symbol_char y) (t ++ "." ++ c) :: rest)) = Some rf /\
    find_reference s rf = None.
Proof. exact symbol_witness. Qed.
Print Assumptions C51_symbols_refuted.

(** ... and so for every reference written as documented *)
Theorem C51_never_found_refuted : forall y t c nn rest s,
  t <> "" -> c <> "" -> ~ char_in "." t -> ~ char_in "." c -> ~ ends_blank c ->
  (forall tbl, In tbl (s_tables s) -> t_name tbl <> String (symbol_char y) t) ->
  exists rf, c_ref (read_column nn (String (symbol_char y) (t ++ "." ++ c) :: rest)) = Some rf /\
    find_reference s rf = None.
Proof. exact symbol_not_found. Qed.
Print Assumptions C51_never_found_refuted.

Example C51_case :
  map (fun x => c_ref (read_column true [x; "group_id"; "int64"])) [">group.id"; "<user.g"; "-a.b"; "group.id"]
  = [Some (mkRef ">group" "id" "n:1"); Some (mkRef "<user" "g" "1:n"); Some (mkRef "-a" "b" "1:1");
     Some (mkRef "group" "id" "n:1")].
Proof. vm_compute. reflexivity. Qed.

(** C52. Full statement: the same with [word = "autoinc"], the documented word, and
    [c_autoinc c = true <-> In DAutoinc lc]. Only the undocumented spelling autoInc is read. *)
Theorem C52_attributes_partial : forall word g use_null tname tcell lt cname ty ccell lc,
  word = "autoinc" \/ word = "autoInc" ->
  tname <> "" -> trimmed tname -> cname <> "" -> trimmed cname -> trim_space ty <> "table" ->
  doc_cell word lt tcell -> doc_attrs_ok lt -> doc_cell word lc ccell -> doc_attrs_ok lc ->
  exists t c,
    read_group_sheet g [header_row use_null; [tname; ""; "table"; ""; ""; tcell; ""];
                        [""; cname; ty; ""; ""; ccell; ""]] = inl [t] /\
    t_name t = tname /\ t_cols t = [c] /\ c_name c = cname /\
    (forall v, In (DClass v) lt -> t_class t = v) /\
    (forall v, In (DDefault v) lc -> c_default c = v) /\
    (forall v, In (DOnUpdate v) lc -> c_onupdate c = v) /\
    (c_autoinc c = true <-> In DAutoinc lc /\ word = "autoInc").
Proof. exact doc_sheet_read. Qed.
Print Assumptions C52_attributes_partial.

Theorem C52_autoinc_refuted : exists word lc ccell, word = "autoinc" /\ doc_cell word lc ccell /\
  doc_attrs_ok lc /\ In DAutoinc lc /\
  forall g use_null, exists t c,
    read_group_sheet g [header_row use_null; ["user"; ""; "table"; ""; ""; ""; ""];
                        [""; "id"; "int64"; "P"; "O"; ccell; "unique id"]] = inl [t] /\
    t_cols t = [c] /\ c_autoinc c = false.
Proof. exact autoinc_unread. Qed.
Print Assumptions C52_autoinc_refuted.

Example C52_case :
  doc_cell "autoInc" [DDefault "fn::CURRENT_TIMESTAMP"; DOnUpdate "fn::CURRENT_TIMESTAMP"]
    "default=fn::CURRENT_TIMESTAMP,onUpdate=fn::CURRENT_TIMESTAMP" /\
  doc_cell "autoInc" [DAutoinc; DDefault "x"] " autoInc ,  default=x" /\
  map (fun x => let m := parse_attributes (trim_space x) in map (attr_get m) ["autoInc"; "default"; "onUpdate"])
    ["default=fn::CURRENT_TIMESTAMP,onUpdate=fn::CURRENT_TIMESTAMP"; " autoInc ,  default=x"; "autoinc"]
  = [[""; "fn::CURRENT_TIMESTAMP"; "fn::CURRENT_TIMESTAMP"]; ["true"; "x"; ""]; [""; ""; ""]].
Proof.
  assert (B : blank "") by (intros c []).
  assert (B1 : blank " ") by (intros c [->|[]]; reflexivity).
  assert (B2 : blank "  ") by (intros c [->|[->|[]]]; reflexivity).
  split.
  - exact (dc_more "autoInc" (DDefault "fn::CURRENT_TIMESTAMP") "" "" _ _ B B
            (dc_one "autoInc" (DOnUpdate "fn::CURRENT_TIMESTAMP") "" "" B B)).
  - split; [|vm_compute; reflexivity].
    exact (dc_more "autoInc" DAutoinc " " " " _ _ B1 B1 (dc_one "autoInc" (DDefault "x") "  " "" B2 B)).
Qed.
