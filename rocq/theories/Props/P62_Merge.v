(** Members of schema files that are given twice (C139) *)
From Coq Require Import String Ascii List NArith Bool.
From Verif.Model Require Import GoString Octopus Json Cli JsonMerge.
From Verif.Spec Require Import FormatSpec MergeSpec.
From Verif.Proofs Require Import MergeProofs MergeTwice.
Import ListNotations.
Local Open Scope string_scope.

(** C139. Full statement: of a member that is given twice, the last value is the one that counts. False: a list of
    tables is decoded into the tables of the list before. *)
Theorem C139_refuted : exists a b g h,
  from_json_merging (JObj [("tables", a); ("tables", b)]) = Some g /\ from_json_merging (JObj [("tables", b)]) = Some h /\ seen_schema g <> seen_schema h.
Proof. exact list_twice. Qed.
Print Assumptions C139_refuted.
Example C139_refuted_case : option_map seen_schema (from_json_merging (JObj [("tables", repeat_first); ("tables", repeat_second)])) =
  Some (mkSchema "" "" "" [mkTable "b" [mkCol "no" "text" "" 0 0 false true false false "" "" [] None] "x" "" "" []]) /\
  option_map seen_schema (from_json_merging (JObj [("tables", repeat_second)])) =
  Some (mkSchema "" "" "" [mkTable "b" [mkCol "no" "text" "" 0 0 false false false false "" "" [] None] "" "" "" []]).
Proof. split; vm_compute; reflexivity. Qed.

(** The statement for texts, numbers and booleans, wherever the two members are and whatever is decoded into. The first
    value is one that can be read; otherwise there is an error. The last one is not null, which leaves what is there. *)
Theorem C139_schema_partial : forall l1 l2 l3 k k' v w, In (to_lower k) schema_scalars -> to_lower k' = to_lower k ->
  from_json_merging (JObj [(k, v)]) <> None -> w <> JNull ->
  from_json_merging (twice l1 l2 l3 k k' v w) = from_json_merging (no_first l1 l2 l3 k' w).
Proof. exact schema_twice. Qed.
Print Assumptions C139_schema_partial.
Theorem C139_table_partial : forall g l1 l2 l3 k k' v w, In (to_lower k) table_scalars -> to_lower k' = to_lower k ->
  dec_fields gtbl_member zero_gtable (JObj [(k, v)]) <> None -> w <> JNull ->
  dec_fields gtbl_member g (twice l1 l2 l3 k k' v w) = dec_fields gtbl_member g (no_first l1 l2 l3 k' w).
Proof. exact table_twice. Qed.
Print Assumptions C139_table_partial.
Theorem C139_column_partial : forall g l1 l2 l3 k k' v w, In (to_lower k) column_scalars -> to_lower k' = to_lower k ->
  dec_fields gcol_member zero_gcol (JObj [(k, v)]) <> None -> w <> JNull ->
  dec_fields gcol_member g (twice l1 l2 l3 k k' v w) = dec_fields gcol_member g (no_first l1 l2 l3 k' w).
Proof. exact column_twice. Qed.
Print Assumptions C139_column_partial.
Example C139_scalars_case :
  option_map seen_schema (from_json_merging (twice [("author", JStr "me")] [("tables", JArr [])] [] "name" "NAME" (JStr "one") (JStr "two"))) =
    Some (mkSchema "me" "two" "" []) /\ from_json_merging (JObj [("name", JStr "one")]) <> None /\
  In (to_lower "name") schema_scalars /\ to_lower "NAME" = to_lower "name" /\
  option_map fst (dec_fields gcol_member zero_gcol (twice [] [("name", JStr "id")] [] "size" "Size" (JNum "7") (JNum "20"))) =
    Some (mkCol "id" "" "" 20 0 false false false false "" "" [] None) /\
  dec_fields gcol_member zero_gcol (JObj [("size", JNum "7")]) <> None /\ In (to_lower "size") column_scalars.
Proof.
  split; [vm_compute; reflexivity|]. split; [vm_compute; discriminate|]. split; [cbn; tauto|]. split; [vm_compute; reflexivity|].
  split; [vm_compute; reflexivity|]. split; [vm_compute; discriminate | cbn; tauto].
Qed.
(** what null does as the last one: the first value stays *)
Example C139_null_case :
  option_map seen_schema (from_json_merging (JObj [("name", JStr "one"); ("name", JNull)])) = Some (mkSchema "" "one" "" []).
Proof. vm_compute. reflexivity. Qed.

(** In documents that give no list and no reference twice, the same schema is found by decoding as in Json.v, where
    every value replaces the one before; and there are nil tables, columns and indices where Cli.v finds nulls. *)
Theorem C139_no_repeats_partial : forall j, no_repeats j ->
  option_map (fun g => (seen_schema g, nil_table g, nil_column g, nil_index g)) (from_json_merging j)
  = option_map (fun s => (s, has_null_table j, has_null_column j, has_null_index j)) (from_json (without_nulls j)).
Proof. exact merge_agrees. Qed.
Print Assumptions C139_no_repeats_partial.
Definition repeat_none : json := JObj [("name", JStr "a"); ("tables", repeat_first); ("NAME", JStr "b")].
Example C139_no_repeats_case : no_repeats repeat_none /\
  option_map seen_schema (from_json_merging repeat_none) =
    Some (mkSchema "" "b" "" [mkTable "a" [mkCol "id" "int" "" 0 0 false true false false "" "" [] None] "x" "" "" []]).
Proof.
  split; [|vm_compute; reflexivity]. split.
  - intros l E. injection E as <-. cbn. repeat constructor.
  - intros ts t (l & k & E & M & K) (a & -> & T). injection E as <-. cbn in M. destruct M as [M|[M|[M|[]]]]; inversion M; subst; clear M; try discriminate K.
    destruct T as [<-|[]]. split; [|split; [|split]].
    + intros l E. injection E as <-. cbn. repeat constructor.
    + intros l E. injection E as <-. cbn. repeat constructor.
    + intros cs c (l & k & E & M & K') (a & -> & T). injection E as <-. cbn in M. destruct M as [M|[M|[M|[]]]]; inversion M; subst; clear M.
      destruct T as [<-|[]]. split; intros l E; injection E as <-; cbn; repeat constructor.
    + intros cs c (l & k & E & M & K') _. injection E as <-. cbn in M. destruct M as [M|[M|[M|[]]]]; inversion M; subst; clear M; discriminate.
Qed.
