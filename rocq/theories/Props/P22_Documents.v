(** Documents: octopus v1 files and StarUML projects *)
From Coq Require Import String Ascii List NArith Bool Sorting.Permutation.
From Verif.Model Require Import GoString Util Octopus Common Json JsonText Ojson Staruml Cli.
From Verif.Spec Require Import Text OctopusSpec CommonSpec JsonSpec OjsonSpec CliSpec FormatSpec StarumlSpec StarDocSpec V1Spec.
From Verif.Proofs Require Import OctopusProofs OjsonProofs CliCases V1Proofs V1Cases StarDocProofs.
Import ListNotations.
Local Open Scope string_scope.

(** C87. Whatever bytes a schema file has, the strings of the loaded schema are UTF-8 text. *)
Theorem C87_loaded_text : forall w fs name s, sorts_tables (w_sort w) -> load_file w fs name = Loaded s -> schema_utf8 s.
Proof. exact load_utf8. Qed.
Print Assumptions C87_loaded_text.

Example C87_case : exists s, load_file sample_world (fun _ => Some ("{""name"": ""a" ++ String "255" "b" ++ String "195" (String "164" """}"))) "db.json" = Loaded s /\
  s_name s = "a" ++ String "239" (String "191" (String "189" "b")) ++ String "195" (String "164" "").
Proof. eexists. split; vm_compute; reflexivity. Qed.

(** C88. False for class names and default values: *)
Theorem C88_refuted : exists w fs v text j s out fs' name s' t c t' c', sorts_tables (w_sort w) /\ sorts_v1 (w_sort_v1 w) /\
  fs (given v "input") = Some text /\ read_text text = Some j /\ v1_doc j s /\ v1_fits_u16 s /\ v1_usable s /\ v1_distinct s /\
  run w fs ImportOjson v = ([(given v "output", out)], Done) /\ octopus_name name /\ fs' name = Some out /\ load_file w fs' name = Loaded s' /\
  In t (o_tables s) /\ In c (o_cols t) /\ In t' (s_tables s') /\ In c' (t_cols t') /\ t_name t' = o_tname t /\ c_name c' = o_name c /\
  t_class t' <> o_class t /\ c_default c' <> o_default c.
Proof. exact v1_file_loses. Qed.
Print Assumptions C88_refuted.

(** Otherwise an octopus v1 file is imported to a file that loads as the schema described; the default values and the
    class names are missing from [v1_kept] (see also C36). *)
Theorem C88_imported_partial : forall w fs v text j s, sorts_tables (w_sort w) -> sorts_v1 (w_sort_v1 w) ->
  v "input" <> None -> v "output" <> None -> fs (given v "input") = Some text -> read_text text = Some j ->
  v1_doc j s -> v1_fits_u16 s -> v1_usable s -> v1_distinct s ->
  exists out, run w fs ImportOjson v = ([(given v "output", out)], Done) /\
    forall fs' name, octopus_name name -> fs' name = Some out -> exists s', load_file w fs' name = Loaded s' /\ v1_kept s s'.
Proof. exact v1_file_imported. Qed.
Print Assumptions C88_imported_partial.

Example C88_case : read_text v1_sample_text = Some v1_sample_json /\ v1_doc v1_sample_json v1_sample /\ v1_fits_u16 v1_sample /\
  v1_usable v1_sample /\ v1_distinct v1_sample.
Proof. exact v1_sample_ok. Qed.
Example C88_run : snd (run sample_world (fun _ => Some v1_sample_text) ImportOjson (option_values [("input", "a.ojson"); ("output", "a.json")])) = Done.
Proof. vm_compute. reflexivity. Qed.

(** C89. A StarUML project is imported to a file that loads as the schema described by its first data model. *)
Theorem C89_imported : forall w fs v text j root model rest, sorts_tables (w_sort w) ->
  (forall n, (n < 65536)%N -> w_float_ok w (itoa n) = true) ->
  v "input" <> None -> v "output" <> None -> fs (given v "input") = Some text -> read_text text = Some j ->
  star_element j root -> references_ok root -> of_type "ERDDataModel" (e_owned root) = model :: rest ->
  (forall entity e, In entity (of_type "ERDEntity" (e_owned model)) -> In e (of_type "ERDColumn" (e_cols entity)) -> star_usable e) ->
  NoDup (map e_name (of_type "ERDEntity" (e_owned model))) ->
  exists out, run w fs ImportStaruml v = ([(given v "output", out)], Done) /\
    forall fs' name, octopus_name name -> fs' name = Some out ->
      exists s' s, load_file w fs' name = Loaded s' /\ schema_repaired s s' /\
        s_version s = e_name root /\ s_name s = "" /\ s_author s = "" /\
        Forall2 (entity_described root) (of_type "ERDEntity" (e_owned model)) (s_tables s).
Proof. exact star_file_imported. Qed.
Print Assumptions C89_imported.

Example C89_case : read_text star_sample_text = Some star_sample_json /\ star_element star_sample_json star_sample /\
  references_ok star_sample /\ of_type "ERDDataModel" (e_owned star_sample) = [star_sample_model] /\
  (forall entity e, In entity (of_type "ERDEntity" (e_owned star_sample_model)) -> In e (of_type "ERDColumn" (e_cols entity)) -> star_usable e) /\
  NoDup (map e_name (of_type "ERDEntity" (e_owned star_sample_model))).
Proof. exact star_sample_ok. Qed.
