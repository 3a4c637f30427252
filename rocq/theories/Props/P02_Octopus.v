(** Properties of /repo/format/octopus *)
From Coq Require Import String Ascii List NArith Bool Sorting.Permutation Sorting.Sorted.
From Verif.Model Require Import GoString Util Octopus Json.
From Verif.Spec Require Import Order Text OctopusSpec.
From Verif.Proofs Require Import TypeProofs OctopusProofs JsonProofs OctopusWitnesses.
Import ListNotations.
Local Open Scope string_scope.

(** C04. Full statement: [parse_type (col_format c) = (c_type c, c_size c, c_scale c)] for every
    accepted type and every 16-bit size and scale. False (C04_type_text_refuted); this is the exact
    condition under which it holds. *)
Theorem C04_type_text_roundtrip_partial : forall c,
  In (c_type c) octopus_types -> (c_size c < 65536)%N -> (c_scale c < 65536)%N ->
  (parse_type (col_format c) = (c_type c, c_size c, c_scale c) <->
   (c_size c = 0%N /\ c_scale c = 0%N) \/
   (c_size c <> 0%N /\ all_chars (fun x => is_letter x = true) (c_type c))).
Proof. exact parse_format_exact. Qed.
Print Assumptions C04_type_text_roundtrip_partial.

(** Hand-written texts: any mix of spaces and commas between size and scale, and any text after
    the closing parenthesis, is accepted for letter-only names. *)
Theorem C04_type_text_spacing : forall name size sep scale rest,
  name <> "" -> all_chars (fun x => is_letter x = true) name ->
  (size < 65536)%N -> (scale < 65536)%N ->
  sep <> "" -> all_chars (fun x => is_sep x = true) sep ->
  parse_type (name ++ "(" ++ itoa size ++ sep ++ itoa scale ++ ")" ++ rest) = (name, size, scale).
Proof. exact parse_type_spacing. Qed.
Print Assumptions C04_type_text_spacing.

Example C04_case :
  (col_format (mkCol "price" "decimal" "" 20 8 true false false false "" "" [] None),
   parse_type "decimal(20,8)", parse_type "decimal(20, 8) unsigned", parse_type "varchar(40)")
  = ("decimal(20,8)", ("decimal", 20%N, 8%N), ("decimal", 20%N, 8%N), ("varchar", 40%N, 0%N)).
Proof. vm_compute. reflexivity. Qed.

Theorem C04_type_text_refuted : exists c,
  valid_column c /\ (c_size c < 65536)%N /\ (c_scale c < 65536)%N /\
  parse_type (col_format c) <> (c_type c, c_size c, c_scale c).
Proof. exact int64_text_witness. Qed.
Print Assumptions C04_type_text_refuted.

(** C05 *)
Theorem C05_normalize_type :
  (forall c, normalize_type (normalize_type c) = normalize_type c) /\
  (forall c d, to_lower (c_type c) = to_lower (c_type d) ->
     c_type (normalize_type c) = c_type (normalize_type d)) /\
  (forall c, canonical (c_type c) (c_type (normalize_type c))) /\
  (forall c t', In (to_lower (c_type c), t') documented_aliases ->
     c_type (normalize_type c) = t' /\ is_valid_col_type t' = true) /\
  (forall c, In (c_type c) octopus_types <-> is_valid_col_type (c_type c) = true) /\
  (forall c, is_valid_col_type (c_type c) = true -> normalize_type c = c).
Proof. exact normalize_type_facts. Qed.
Print Assumptions C05_normalize_type.

Example C05_case :
  map (fun t => c_type (normalize_type (with_type zero_col t))) ["BigInt"; "TEXT"; "decimal"; "whatever"]
  = ["int64"; "text16"; "decimal"; "whatever"].
Proof. vm_compute. reflexivity. Qed.

(** C06 *)
Theorem C06_normalize_success : forall sortf s s', sorts_tables sortf -> normalize sortf s = (s', None) ->
  (exists ts, Permutation ts (s_tables s) /\ Forall2 table_repaired ts (s_tables s')) /\
  StronglySorted table_le (s_tables s') /\
  valid_schema s' /\
  s_author s' = s_author s /\ s_name s' = s_name s /\ s_version s' = s_version s.
Proof. exact normalize_ok. Qed.
Print Assumptions C06_normalize_success.

Theorem C06_normalize_error : forall sortf s, sorts_tables sortf ->
  (snd (normalize sortf s) = None <-> forall c, In c (columns_of s) -> repairable c).
Proof. exact normalize_error. Qed.
Print Assumptions C06_normalize_error.

(** A second run changes nothing (with tables of equal group and name, sort.Sort may
    exchange those). *)
Theorem C06_normalize_twice : forall sortf sortf' s s', sorts_tables sortf -> sorts_tables sortf' ->
  normalize sortf s = (s', None) ->
  (exists ts, normalize sortf' s' = (with_tables s' ts, None) /\ Permutation ts (s_tables s')) /\
  (distinct_table_keys s -> normalize sortf' s' = (s', None)).
Proof. exact normalize_again. Qed.
Print Assumptions C06_normalize_twice.

Example C06_case :
  let s := mkSchema "me" "db" "1"
    [mkTable "user" [mkCol "id" "BIGINT" "" 0 0 true true false true "" "" [] None;
                     mkCol "name" "String" "" 40 0 true false true true "" "" [] None] "" "b" "" [];
     mkTable "grp" [mkCol "kind" "enum" "" 0 0 true false false false "" "" ["x"; "y"] None] "" "a" "" []] in
  sorts_tables isort_tables /\ distinct_table_keys s /\
  normalize isort_tables s =
  (mkSchema "me" "db" "1"
    [mkTable "grp" [mkCol "kind" "enum" "" 0 0 true false false false "" "" ["x"; "y"] None] "" "a" "" [];
     mkTable "user" [mkCol "id" "int64" "" 0 0 true true false true "" "" [] None;
                     mkCol "name" "varchar" "" 40 0 true false true false "" "" [] None] "" "b" "" []], None).
Proof.
  split; [exact isort_sorts|]. split; [|vm_compute; reflexivity].
  unfold distinct_table_keys. simpl. repeat constructor; simpl; intuition congruence.
Qed.

(** C07. Full statement: [load_schema sortf ok j = Some s -> valid_schema s]. False, see below;
    it holds when every column can be made valid. *)
Theorem C07_load_schema_valid_partial : forall sortf ok j s0 s, sorts_tables sortf ->
  from_json j = Some s0 -> (forall c, In c (columns_of s0) -> repairable c) ->
  load_schema sortf ok j = Some s -> valid_schema s.
Proof. exact load_schema_valid. Qed.
Print Assumptions C07_load_schema_valid_partial.

Theorem C07_load_schema_refuted : forall sortf, sorts_tables sortf ->
  exists j s, load_schema sortf true j = Some s /\ ~ valid_schema s.
Proof. exact load_schema_witness. Qed.
Print Assumptions C07_load_schema_refuted.

Example C07_case :
  let j := JObj [("tables", JArr [JObj [("name", JStr "t");
     ("columns", JArr [JObj [("name", JStr "id"); ("type", JStr "LONG"); ("autoinc", JBool true)]])]])] in
  option_map (fun s => map (fun c => (c_type c, c_autoinc c)) (columns_of s)) (load_schema isort_tables true j)
  = Some [("int64", true)].
Proof. vm_compute. reflexivity. Qed.

(** C08. Full statement: the last two lines without their hypothesis. *)
Theorem C08_fn_value_partial : forall c,
  (forall f, get_default_value (set_default_value_fn c f) = (f, true)) /\
  (forall f, get_on_update (set_on_update_fn c f) = (f, true)) /\
  (forall v, ~ (exists r, v = fn_prefix ++ r) -> get_default_value (set_default_value c (Some v)) = (v, false)) /\
  (forall v, ~ (exists r, v = fn_prefix ++ r) -> get_on_update (set_on_update c (Some v)) = (v, false)) /\
  get_default_value (set_default_value c None) = ("", false) /\
  get_on_update (set_on_update c None) = ("", false).
Proof. exact fn_value_facts. Qed.
Print Assumptions C08_fn_value_partial.

Theorem C08_fn_value_refuted : exists c v,
  get_default_value (set_default_value c (Some v)) <> (v, false).
Proof. exact fn_literal_witness. Qed.
Print Assumptions C08_fn_value_refuted.

Example C08_case :
  (get_default_value (set_default_value_fn zero_col "NOW"), get_default_value (set_default_value zero_col (Some "fn:")))
  = (("NOW", true), ("fn:", false)).
Proof. vm_compute. reflexivity. Qed.

(** C09, on JSON trees *)
Theorem C09_json_roundtrip : forall sortf s j, sorts_tables sortf -> fits_u16 s ->
  to_json sortf s = Some j ->
  exists s', normalize sortf s = (s', None) /\ from_json j = Some s'.
Proof. exact to_from_json. Qed.
Print Assumptions C09_json_roundtrip.

Example C09_case :
  let s := mkSchema "" "db" ""
    [mkTable "user" [mkCol "id" "int64" "key" 20 0 true true false true "" "" [] (Some (mkRef "grp" "id" "n:1"))]
       "" "g" "User" [mkIdx "ix" ["id"]; mkIdx "none" []]] in
  fits_u16 s /\ match to_json isort_tables s with Some j => from_json j | None => None end = Some s.
Proof.
  split; [|vm_compute; reflexivity].
  intros c [<-|[]]. split; reflexivity.
Qed.

(** C10 *)
Theorem C10_lookups : forall s,
  (forall n, table_by_name (s_tables s) n = None <-> ~ exists t, In t (s_tables s) /\ t_name t = n) /\
  (forall n t, table_by_name (s_tables s) n = Some t -> In t (s_tables s) /\ t_name t = n) /\
  (forall t n, column_by_name (t_cols t) n = None <-> ~ exists c, In c (t_cols t) /\ c_name c = n) /\
  (forall t n c, column_by_name (t_cols t) n = Some c -> In c (t_cols t) /\ c_name c = n) /\
  (NoDup (map t_name (s_tables s)) -> forall n,
     tables_by_name (s_tables s) n = table_by_name (s_tables s) n) /\
  (forall t, NoDup (map c_name (t_cols t)) -> forall n,
     column_name_map (t_cols t) n = column_by_name (t_cols t) n) /\
  (forall t n ix, index_by_name (t_indices t) n = Some ix -> In ix (t_indices t) /\ ix_name ix = n) /\
  (forall t n, index_by_name (t_indices t) n = None <-> ~ exists ix, In ix (t_indices t) /\ ix_name ix = n) /\
  (NoDup (map t_name (s_tables s)) -> (forall t, In t (s_tables s) -> NoDup (map c_name (t_cols t))) ->
   forall r t c, find_reference s r = Some (t, c) <->
     In t (s_tables s) /\ t_name t = ref_table r /\ In c (t_cols t) /\ c_name c = ref_column r) /\
  (forall t k, ss_contains (pk_name_set t) k = true <-> exists c, In c (t_cols t) /\ c_pk c = true /\ c_name c = k) /\
  (forall t k, ss_contains (uq_name_set t) k = true <-> exists c, In c (t_cols t) /\ c_uq c = true /\ c_name c = k).
Proof. exact lookups_facts. Qed.
Print Assumptions C10_lookups.

Example C10_case :
  let c := mkCol "id" "int64" "" 0 0 true true false true "" "" [] None in
  let t := mkTable "user" [c] "" "" "" [] in
  let s := mkSchema "" "" "" [t] in
  NoDup (map t_name (s_tables s)) /\
  find_reference s (mkRef "user" "id" "") = Some (t, c) /\ find_reference s (mkRef "user" "x" "") = None /\
  pk_name_set t = ["id"].
Proof. simpl. repeat split; repeat constructor; simpl; tauto. Qed.

(** C11 *)
Theorem C11_groups : forall s,
  strictly_increasing (groups s) /\
  forall g, In g (groups s) <-> exists t, In t (s_tables s) /\ t_group t = g.
Proof. exact groups_spec. Qed.
Print Assumptions C11_groups.

Example C11_case :
  groups (mkSchema "" "" "" (map (fun g => mkTable "t" [] "" g "" []) ["b"; "a"; ""; "b"])) = [""; "a"; "b"].
Proof. vm_compute. reflexivity. Qed.

(** C12. The option is a comma separated list of parts. *)
Theorem C12_group_filter : forall opt t,
  (opt = "" -> passes (get_table_filter opt) t = true) /\
  (opt <> "" -> forall parts, parts <> [] -> (forall p, In p parts -> ~ char_in "," p) ->
     opt = join "," parts -> (passes (get_table_filter opt) t = true <-> In (t_group t) parts)).
Proof. exact filter_spec. Qed.
Print Assumptions C12_group_filter.

Example C12_case :
  map (fun g => passes (get_table_filter "a,bc") (mkTable "t" [] "" g "" [])) ["a"; "b"; "bc"; ""; "a,bc"]
  = [true; false; true; false; false].
Proof. vm_compute. reflexivity. Qed.
