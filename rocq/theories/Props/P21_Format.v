(** Schema files as described in docs/octopus-format.md (C84-C86) *)
From Coq Require Import String Ascii List NArith Bool.
From Verif.Model Require Import GoString Octopus Json JsonText Mysql Cli.
From Verif.Spec Require Import Text OctopusSpec JsonSpec CliSpec FormatSpec.
From Verif.Proofs Require Import CliCases CliFormat.
Import ListNotations.
Local Open Scope string_scope.

(** C84. A file that follows the description loads with the described meaning. Missing from the full claim:
    "ref" as a list (see C84_list_refuted) and sizes above 65535 (see C84_large_refuted). *)
Theorem C84_partial : forall w fs name text j s, sorts_tables (w_sort w) -> octopus_name name ->
  fs name = Some text -> read_text text = Some j -> doc_schema false j s -> fits_u16 s ->
  exists s', load_file w fs name = Loaded s' /\
    ((forall c, In c (columns_of s) -> repairable c) -> schema_repaired s s').
Proof. exact document_loads. Qed.
Print Assumptions C84_partial.

Theorem C84_list_refuted : exists text j s, read_text text = Some j /\ doc_schema true j s /\ valid_schema s /\
  forall w fs name, fs name = Some text -> load_file w fs name = LoadFailed.
Proof. exact list_refused. Qed.
Print Assumptions C84_list_refuted.

Theorem C84_large_refuted : exists text j s, read_text text = Some j /\ doc_schema false j s /\ valid_schema s /\
  forall w fs name, fs name = Some text -> load_file w fs name = LoadFailed.
Proof. exact large_refused. Qed.
Print Assumptions C84_large_refuted.

(** the example at the end of the description *)
Example C84_case : read_text example_text = Some example_json /\ doc_schema false example_json example_schema /\
  fits_u16 example_schema /\ (forall c, In c (columns_of example_schema) -> repairable c) /\
  exists s', load_file sample_world (fun _ => Some example_text) "db.json" = Loaded s' /\
    map t_name (s_tables s') = ["group"; "user"].
Proof. exact example_ok. Qed.

(** C85. Every documented type, in any case, becomes the documented MySQL type once the file is loaded. *)
Theorem C85_mysql_types : forall c c' my, column_repaired c c' -> In (to_lower (c_type c), my) documented_mysql ->
  to_mysql_column_type c' = my ++
    (if str_in my sized_mysql && N.ltb 0 (c_size c)
     then if N.ltb 0 (c_scale c) then "(" ++ itoa (c_size c) ++ "," ++ itoa (c_scale c) ++ ")"
          else "(" ++ itoa (c_size c) ++ ")"
     else "").
Proof. exact mysql_types. Qed.
Print Assumptions C85_mysql_types.

Example C85_case :
  to_mysql_column_type (mkCol "price" "decimal" "" 12 2 false false false false "" "" [] None) = "decimal(12,2)" /\
  In (to_lower "Numeric", "decimal") documented_mysql /\
  column_repaired (mkCol "price" "Numeric" "" 12 2 false false false false "" "" [] None)
                  (mkCol "price" "decimal" "" 12 2 false false false false "" "" [] None).
Proof. exact mysql_case. Qed.

(** C86. No text makes the reader of schema files crash: false, see C86_refuted. The only way is null in place of
    a table or a column (LoadUnknown: null in place of a column, and another column that is not valid). *)
Theorem C86_partial : forall w fs name, (load_file w fs name = LoadCrashed -> exists text j, fs name = Some text /\
    read_text text = Some j /\ (null_table j \/ null_part "columns" j)) /\
  (load_file w fs name = LoadNil -> exists text j, fs name = Some text /\ read_text text = Some j /\ null_part "indices" j) /\
  (load_file w fs name = LoadUnknown -> exists text j, fs name = Some text /\ read_text text = Some j /\ null_part "columns" j).
Proof. exact crash_null. Qed.
Print Assumptions C86_partial.

(** A file that follows the description, but for null elements, and whose columns are valid: null in place of a table
    or a column always crashes; in place of an index it never does. *)
Theorem C86_nulls_partial : forall w fs name text j s, octopus_name name -> fs name = Some text -> read_text text = Some j ->
  padded_schema j s -> fits_u16 s -> (forall c, In c (columns_of s) -> repairable c) ->
  (null_table j \/ null_part "columns" j -> load_file w fs name = LoadCrashed) /\
  (~ null_table j -> ~ null_part "columns" j -> null_part "indices" j -> load_file w fs name = LoadNil) /\
  (~ null_table j -> ~ null_part "columns" j -> ~ null_part "indices" j -> exists s', load_file w fs name = Loaded s').
Proof. exact nulls_load. Qed.
Print Assumptions C86_nulls_partial.

Theorem C86_refuted : exists text, forall w fs name,
  octopus_name name -> fs name = Some text -> load_file w fs name = LoadCrashed.
Proof. exact null_crashes. Qed.
Print Assumptions C86_refuted.

Example C86_case : load_file sample_world (fun _ => Some "{""Tables"": [{}, null]}") "db.json" = LoadCrashed.
Proof. vm_compute. reflexivity. Qed.
Example C86_nil : load_file sample_world (fun _ => Some "{""tables"": [{""indices"": [null]}]}") "db.json" = LoadNil.
Proof. vm_compute. reflexivity. Qed.
Example C86_unknown :
  load_file sample_world (fun _ => Some "{""tables"": [{""columns"": [{""name"": ""a"", ""type"": ""bool""}, null]}]}") "db.json" = LoadUnknown.
Proof. vm_compute. reflexivity. Qed.
Example C86_nulls_case : (forall c, In c (columns_of nulls_schema) -> repairable c) /\ fits_u16 nulls_schema /\
  (read_text (nulls_text "null, " "" "") = Some (nulls_json [JNull] [] []) /\
   padded_schema (nulls_json [JNull] [] []) nulls_schema /\ null_table (nulls_json [JNull] [] [])) /\
  (read_text (nulls_text "" ", null, null" "") = Some (nulls_json [] [JNull; JNull] []) /\
   padded_schema (nulls_json [] [JNull; JNull] []) nulls_schema /\ null_part "columns" (nulls_json [] [JNull; JNull] [])) /\
  (read_text (nulls_text "" "" "null, ") = Some (nulls_json [] [] [JNull]) /\
   padded_schema (nulls_json [] [] [JNull]) nulls_schema /\ null_part "indices" (nulls_json [] [] [JNull]) /\
   ~ null_table (nulls_json [] [] [JNull]) /\ ~ null_part "columns" (nulls_json [] [] [JNull])).
Proof. exact nulls_case. Qed.
