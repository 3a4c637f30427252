(** Excel files as docs/xlsx.md describes them *)
From Coq Require Import String List NArith.
From Verif.Model Require Import GoString Octopus Cli.
From Verif.Spec Require Import OctopusSpec JsonSpec CliSpec DiffSpec XlsxDocSpec.
From Verif.Proofs Require Import CliCases CliOptions XlsxDocProofs XlsxDocCases.
Import ListNotations.
Local Open Scope string_scope.

(** C94. The import of a workbook written as the documentation describes writes a file that loads as the schema the workbook
    describes. False of the documented spelling of references and auto-increment columns ([C94_refuted], the example of the
    documentation). True with the spelling that works, and with the documented one for tables without such columns
    ([C94_partial]). *)
Theorem C94_partial : forall w fs v text wb sp s, sorts_tables (w_sort w) -> iteration_order (w_ord_keys w) ->
  v "input" <> None -> v "output" <> None -> fs (given v "input") = Some text -> w_open_xlsx w text = Some wb ->
  doc_workbook sp wb s -> (sp = Documented -> forall c, In c (columns_of s) -> c_ref c = None /\ c_autoinc c = false) ->
  schema_utf8 s -> distinct_table_keys s -> (forall c, In c (columns_of s) -> repairable c) ->
  exists out, run w fs ImportXlsx v = ([(given v "output", out)], Done) /\
    forall fs' name, octopus_name name -> fs' name = Some out ->
      exists s', load_file w fs' name = Loaded s' /\ schema_repaired s s'.
Proof. exact xlsx_file_imported. Qed.
Print Assumptions C94_partial.

Theorem C94_refuted : exists w fs v text wb s, sorts_tables (w_sort w) /\ iteration_order (w_ord_keys w) /\
  v "input" <> None /\ v "output" <> None /\ fs (given v "input") = Some text /\ w_open_xlsx w text = Some wb /\
  doc_workbook Documented wb s /\ schema_utf8 s /\ distinct_table_keys s /\ (forall c, In c (columns_of s) -> repairable c) /\
  exists out, run w fs ImportXlsx v = ([(given v "output", out)], Done) /\
    forall fs' name s', octopus_name name -> fs' name = Some out -> load_file w fs' name = Loaded s' -> ~ schema_repaired s s'.
Proof. exact documented_refuted. Qed.
Print Assumptions C94_refuted.

Example C94_case : doc_workbook Working (doc_file "autoInc" "group.id") doc_described /\
  schema_utf8 doc_described /\ distinct_table_keys doc_described /\ (forall c, In c (columns_of doc_described) -> repairable c) /\
  load_file sample_world
    (fun _ => Some (text_written (run (workbook_world (doc_file "autoInc" "group.id")) (fun _ => Some "") ImportXlsx xlsx_values))) "a.json" =
  Loaded (mkSchema "me" "" "1.0"
    [mkTable "group"
       [mkCol "id" "int64" "" 0 0 true true false true "" "" [] None;
        mkCol "name" "varchar" "group name" 20 0 true false true false "" "" [] None;
        mkCol "created_at" "datetime" "" 0 0 true false false false "fn::CURRENT_TIMESTAMP" "" [] None;
        mkCol "updated_at" "datetime" "" 0 0 true false false false "fn::CURRENT_TIMESTAMP" "fn::CURRENT_TIMESTAMP" [] None]
       "User Group" "Common" "UserGroup" [];
     mkTable "user"
       [mkCol "id" "int64" "user id" 0 0 true true false true "" "" [] None;
        mkCol "name" "varchar" "user name" 40 0 true false false false "" "" [] None;
        mkCol "group_id" "int64" "group id" 0 0 true false false false "" "" [] (Some (mkRef "group" "id" "n:1"))]
       "User" "Common" "" [mkIdx "user_idx" ["name"; "group_id"]]]).
Proof.
  split; [exact (doc_file_ok Working)|]. destruct described_checked as (U & K & R). split; [exact U|]. split; [exact K|].
  split; [exact R|]. vm_compute. reflexivity.
Qed.
