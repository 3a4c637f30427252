(** Schemas that go through workbooks again (C110) *)
From Coq Require Import String List NArith Bool.
From Verif.Model Require Import GoString Octopus Common Xlsx Cli.
From Verif.Spec Require Import Text OctopusSpec JsonSpec DiffSpec XlsxSpec BookSpec CliSpec OptionsSpec EndSpec.
From Verif.Proofs Require Import CliCases EndCases XlsxTrips XlsxTripFiles XlsxTripCases.
Import ListNotations.
Local Open Scope string_scope.

(** C110. What was read from a workbook, whatever its cells, is read again from the workbook written for it, group by
    group and in order, except that on-update values are replaced by default values (see C35). *)
Theorem C110_second_trip_partial : forall name_ok un ord ord' wb s, iteration_order ord -> iteration_order ord' ->
  name_ok "Meta" = true -> (forall sh, In sh wb -> fst sh <> "" /\ name_ok (fst sh) = true) ->
  import_xlsx ord wb = inl s -> (forall c, In c (columns_of s) -> steady_type c) ->
  exists wb1, export_xlsx name_ok un s = Some wb1 /\
  forall wb2, reads_as wb1 wb2 ->
  exists s', import_xlsx ord' wb2 = inl s' /\
    s_author s' = s_author s /\ s_name s' = s_name s /\ s_version s' = s_version s /\
    forall g, filter (fun t => String.eqb (t_group t) g) (s_tables s') =
              map settled_table (filter (fun t => String.eqb (t_group t) g) (s_tables s)).
Proof. exact books_trip. Qed.
Print Assumptions C110_second_trip_partial.

(** odd spellings, references with symbols, attributes given twice, rows that are skipped: one value changes *)
Example C110_second_trip_case :
  (forall sh, In sh full_book -> fst sh <> "") /\
  import_xlsx (fun l => l) full_book = inl (mkSchema "me" "" "3" [full_user "true"; full_grp]) /\
  (forall c, In c (columns_of (mkSchema "me" "" "3" [full_user "true"; full_grp])) -> steady_type c) /\
  exists wb1, export_xlsx (fun _ => true) true (mkSchema "me" "" "3" [full_user "true"; full_grp]) = Some wb1 /\
    import_xlsx (fun l => l) wb1 = inl (mkSchema "me" "" "3" [full_grp; full_user ""]).
Proof. exact full_trip. Qed.

(** Without such values nothing changes; replaced values are not replaced again. *)
Theorem C110_settles : forall name_ok un ord ord' wb s, iteration_order ord -> iteration_order ord' ->
  name_ok "Meta" = true -> (forall sh, In sh wb -> fst sh <> "" /\ name_ok (fst sh) = true) ->
  import_xlsx ord wb = inl s -> (forall c, In c (columns_of s) -> steady_type c /\ settled c) ->
  exists wb1, export_xlsx name_ok un s = Some wb1 /\
  forall wb2, reads_as wb1 wb2 ->
  exists s', import_xlsx ord' wb2 = inl s' /\
    s_author s' = s_author s /\ s_name s' = s_name s /\ s_version s' = s_version s /\
    forall g, filter (fun t => String.eqb (t_group t) g) (s_tables s') = filter (fun t => String.eqb (t_group t) g) (s_tables s).
Proof. exact books_settle. Qed.
Print Assumptions C110_settles.
Theorem C110_settled_twice : forall t, settled_table (settled_table t) = settled_table t.
Proof. exact settled_table_twice. Qed.
Print Assumptions C110_settled_twice.

(** With the commands: once the types are those of octopus files, the second import writes, byte for byte, the file of
    the first. *)
Theorem C110_files_partial : forall w fs v text wb file, real_world w -> keeps_workbooks w ->
  fs (given v "input") = Some text -> w_open_xlsx w text = Some wb -> text_book wb ->
  w_sheet_ok w "Meta" = true -> (forall sh, In sh wb -> fst sh <> "" /\ w_sheet_ok w (fst sh) = true) ->
  run w fs ImportXlsx v = ([(given v "output", file)], Done) ->
  forall fs1 v1 s, fs1 (given v1 "input") = Some file -> octopus_name (given v1 "input") ->
  v1 "input" <> None -> v1 "output" <> None ->
  load_file w fs1 (given v1 "input") = Loaded s ->
  (forall c, In c (columns_of s) -> readable_type c /\ settled c) -> distinct_table_keys s ->
  exists book, run w fs1 ExportXlsx v1 = ([(given v1 "output", book)], Done) /\
  forall fs2 v2, fs2 (given v2 "input") = Some book -> v2 "input" <> None -> v2 "output" <> None ->
  run w fs2 ImportXlsx v2 = ([(given v2 "output", file)], Done).
Proof. exact book_files. Qed.
Print Assumptions C110_files_partial.

(** types in other words, which the first import puts right *)
Example C110_files_case :
  w_open_xlsx end_world (save_book word_book) = Some word_book /\ text_book word_book /\
  (forall sh, In sh word_book -> fst sh <> "" /\ w_sheet_ok end_world (fst sh) = true) /\
  run end_world (fun _ => Some (save_book word_book)) ImportXlsx book_in = ([("b.json", first_file word_book)], Done) /\
  load_file end_world (fun _ => Some (first_file word_book)) "b.json" = Loaded word_schema /\
  (forall c, In c (columns_of word_schema) -> readable_type c /\ settled c) /\ distinct_table_keys word_schema.
Proof. exact word_files. Qed.

(** As stated it is false: the on-update value of this workbook becomes another one. *)
Theorem C110_same_refuted : exists wb s s', forall ord un, iteration_order ord ->
  import_xlsx ord wb = inl s /\ (forall c, In c (columns_of s) -> steady_type c) /\
  export_xlsx (fun _ => true) un s = Some (meta_book s un) /\ import_xlsx ord (meta_book s un) = inl s' /\
  s_tables s = [update_table "z"] /\ s_tables s' = [update_table "a"].
Proof. exact update_changes. Qed.
Print Assumptions C110_same_refuted.
(** A size that is read as 0 takes the scale with it. *)
Theorem C110_types_refuted : exists wb s s', forall ord un, iteration_order ord ->
  import_xlsx ord wb = inl s /\ export_xlsx (fun _ => true) un s = Some (meta_book s un) /\ import_xlsx ord (meta_book s un) = inl s' /\
  s_tables s = [wrap_table 2] /\ s_tables s' = [wrap_table 0].
Proof. exact wrap_changes. Qed.
Print Assumptions C110_types_refuted.
(** The cell bigint(20) is imported; the exported workbook is not. *)
Theorem C110_files_refuted :
  run end_world (fun _ => Some (save_book bigint_book)) ImportXlsx book_in = ([("b.json", first_file bigint_book)], Done) /\
  load_file end_world (fun _ => Some (first_file bigint_book)) "b.json" =
    Loaded (mkSchema "" "" "" [mkTable "t" [mkCol "id" "int64" "" 20 0 true true false false "" "" [] None] "" "g" "" []]) /\
  run end_world (fun _ => Some (first_file bigint_book)) ExportXlsx book_out = ([("c.xlsx", second_book bigint_book)], Done) /\
  run end_world (fun _ => Some (second_book bigint_book)) ImportXlsx book_back = failed.
Proof. exact bigint_fails. Qed.
Print Assumptions C110_files_refuted.
