(** Properties of the protobuf definitions *)
From Coq Require Import String Ascii List NArith ZArith Bool.
From Verif.Model Require Import GoString Octopus Common Protobuf.
From Verif.Spec Require Import Text Reading OctopusSpec GraphqlSpec ProtobufSpec.
From Verif.Proofs Require Import ProtobufProofs.
Import ListNotations.
Local Open Scope string_scope.

(** C39. Full statement: for every start tag. It fails for a start tag so large that the tags overflow. *)
Theorem C39_tags_refuted : exists camel lc o s t m, pb_new_message camel lc o s t = Ok m /\
  ~ tags_ok (length (t_cols t)) (map pf_tag (pm_fields m)) (map pr_tag (pm_relations m)).
Proof. exact tags_overflow. Qed.
Print Assumptions C39_tags_refuted.

(** Here start tag and number of columns are such that nothing overflows: in every message the column
    fields have the tags 1..n and the relation tags are distinct, positive and not among them, for
    both directions. *)
Theorem C39_tags_partial : forall camel lc o s t m, fits (po_start o) (length (t_cols t)) ->
  pb_new_message camel lc o s t = Ok m ->
  tags_ok (length (t_cols t)) (map pf_tag (pm_fields m)) (map pr_tag (pm_relations m)).
Proof. exact tags_correct. Qed.
Print Assumptions C39_tags_partial.

Example C39_case : fits 100 4 /\
  option_map (fun m => (map pf_tag (pm_fields m), map pr_tag (pm_relations m)))
    (match pb_new_message pb_same pb_same (pb_opt 100 true None) pb_user (nth 1 (s_tables pb_user) (mkTable "" [] "" "" "" [])) with
     | Ok m => Some m | Panic => None end) = Some ([1; 2; 3; 4]%Z, [100; 101]%Z).
Proof. split; [vm_compute; repeat split; discriminate|]. vm_compute. reflexivity. Qed.

(** C40. False as stated: a reference to a table that does not exist. *)
Theorem C40_no_crash_refuted : exists camel lc o s, pb_generate camel lc o s = Panic.
Proof. exact dangling_panics. Qed.
Print Assumptions C40_no_crash_refuted.

(** The generator succeeds exactly if all references of the selected tables name existing tables. *)
Theorem C40_no_crash_partial : forall camel lc o s,
  (forall t, In t (filter (passes (po_filter o)) (s_tables s)) -> refs_resolve (s_tables s) t) <->
  exists text, pb_generate camel lc o s = Ok text.
Proof. exact generate_ok. Qed.
Print Assumptions C40_no_crash_partial.

Example C40_case : refs_resolve (s_tables pb_user) (nth 1 (s_tables pb_user) (mkTable "" [] "" "" "" [])) /\
  length (table_refs (nth 1 (s_tables pb_user) (mkTable "" [] "" "" "" []))) = 2.
Proof. split; [exact pb_user_resolves|reflexivity]. Qed.

(** C60. The direction is ignored: the tags go up from the start tag although they should go down. *)
Theorem C60_direction_refuted : exists camel lc o s t m, fits (po_start o) (length (t_cols t)) /\
  pb_new_message camel lc o s t = Ok m /\ po_decr o = true /\
  (Z.of_nat (length (t_cols t)) + Z.of_nat (length (pm_relations m)) < po_start o)%Z /\
  map pr_tag (pm_relations m) <> map (fun j => po_start o - Z.of_nat j)%Z (seq 0 (length (pm_relations m))).
Proof. exact direction_ignored. Qed.
Print Assumptions C60_direction_refuted.

(** Neither flag of the command reaches the generator. *)
Theorem C60_flags_refuted : forall prefix groups remove pkg go_pkg start decr o,
  pb_cli_option prefix groups remove pkg go_pkg start decr = Ok o -> po_start o = (-1)%Z /\ po_decr o = false.
Proof. exact flags_ignored. Qed.
Print Assumptions C60_flags_refuted.

(** What holds: going up, the tags start at the start tag if that is above the tags of the columns. *)
Theorem C60_upwards_partial : forall camel lc o s t m, fits (po_start o) (length (t_cols t)) ->
  po_decr o = false -> (Z.of_nat (length (t_cols t)) < po_start o)%Z ->
  pb_new_message camel lc o s t = Ok m ->
  map pr_tag (pm_relations m) = map (fun j => po_start o + Z.of_nat j)%Z (seq 0 (length (pm_relations m))).
Proof. exact tags_up. Qed.
Print Assumptions C60_upwards_partial.

Example C60_case : fits 100 4 /\
  option_map (fun m => map pr_tag (pm_relations m))
    (match pb_new_message pb_same pb_same (pb_opt 100 false None) pb_user (nth 1 (s_tables pb_user) (mkTable "" [] "" "" "" [])) with
     | Ok m => Some m | Panic => None end) = Some [100; 101]%Z.
Proof. split; [vm_compute; repeat split; discriminate|]. vm_compute. reflexivity. Qed.

(** C61. False as stated: a one-to-many reference does not become a repeated field. *)
Theorem C61_file_refuted : exists s text l,
  pb_names_ok pb_same pb_same (get_prefix (mkPM "" [] false)) [] (s_tables s) (s_tables s) /\
  pb_generate pb_same pb_same (pb_opt (-1) false None) s = Ok text /\ read_proto text = Some l /\
  ~ proto_described pb_same pb_same (get_prefix (mkPM "" [] false)) [] true "octopus" "model" (s_tables s) (s_tables s) l.
Proof. exact not_repeated. Qed.
Print Assumptions C61_file_refuted.

(** Everything but the label of one-to-many fields: the text is proto3 with the package and the option,
    the import exactly if it is needed, and one message per selected table with one field per column in
    order and one field per reference, with correct types, names and tags. For every choice of naming
    functions and options; the names that occur have to be words. *)
Theorem C61_file_partial : forall camel lc o s text,
  one_line (po_package o) -> one_line (po_go_package o) ->
  pb_names_ok camel lc (get_prefix (po_prefix o)) (po_remove o) (s_tables s) (filter (passes (po_filter o)) (s_tables s)) ->
  (forall t, In t (s_tables s) -> fits (po_start o) (length (t_cols t))) ->
  pb_generate camel lc o s = Ok text ->
  exists l, read_proto text = Some l /\
    proto_described camel lc (get_prefix (po_prefix o)) (po_remove o) false (po_package o) (po_go_package o)
      (s_tables s) (filter (passes (po_filter o)) (s_tables s)) l.
Proof. exact generate_reads. Qed.
Print Assumptions C61_file_partial.

Example C61_case :
  pb_names_ok pb_same pb_same (get_prefix (mkPM "" [] false)) [] (s_tables pb_user) (filter (passes None) (s_tables pb_user)) /\
  pb_generate pb_same pb_same (pb_opt (-1) false None) pb_user = Ok
"syntax = ""proto3"";

package octopus;

option go_package = ""model"";

import ""google/protobuf/timestamp.proto"";

message group {
  int64 id = 1;
  string name = 2;
}

message user {
  int64 id = 1;
  int64 group_id = 2;
  int64 friend = 3;
  google.protobuf.Timestamp created = 4;
  group group = 5;
  user user = 6;
}
".
Proof. split; [exact (pb_user_ok (-1) false)|]. vm_compute. reflexivity. Qed.

(** C62. False as stated: with a group filter a message may use a message that is not generated. *)
Theorem C62_contained_refuted : exists f s text l,
  (forall t, In t (s_tables s) -> refs_resolve (s_tables s) t) /\
  (forall t c, In t (s_tables s) -> In c (t_cols t) -> exists b, proto_type (c_type c) b) /\
  pb_generate pb_same pb_same (pb_opt (-1) false f) s = Ok text /\ read_proto text = Some l /\ ~ self_contained l.
Proof. exact filter_breaks. Qed.
Print Assumptions C62_contained_refuted.

(** What holds: if the column types have a counterpart and the referenced tables are selected as well,
    every type used is a scalar, a message of the file or imported. *)
Theorem C62_contained_partial : forall camel lc o s text,
  one_line (po_package o) -> one_line (po_go_package o) ->
  pb_names_ok camel lc (get_prefix (po_prefix o)) (po_remove o) (s_tables s) (filter (passes (po_filter o)) (s_tables s)) ->
  (forall t, In t (s_tables s) -> fits (po_start o) (length (t_cols t))) ->
  (forall t c, In t (filter (passes (po_filter o)) (s_tables s)) -> In c (t_cols t) -> exists b, proto_type (c_type c) b) ->
  (forall t r u, In t (filter (passes (po_filter o)) (s_tables s)) -> In r (table_refs t) ->
     target (s_tables s) (ref_table r) u -> In u (filter (passes (po_filter o)) (s_tables s))) ->
  pb_generate camel lc o s = Ok text ->
  exists l, read_proto text = Some l /\ self_contained l.
Proof. exact generate_contained. Qed.
Print Assumptions C62_contained_partial.

Example C62_case : exists l,
  match pb_generate pb_same pb_same (pb_opt (-1) false None) pb_user with Ok t => read_proto t | Panic => None end = Some l /\
  length l = 6.
Proof. eexists. split; [vm_compute; reflexivity|reflexivity]. Qed.
