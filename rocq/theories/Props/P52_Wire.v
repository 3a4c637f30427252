(** Protocol buffers of different versions of a schema (C129) *)
From Coq Require Import String Ascii List NArith ZArith Bool.
From Verif.Model Require Import GoString Util Octopus Common Protobuf Cli.
From Verif.Spec Require Import Text Reading OctopusSpec GraphqlSpec ProtobufSpec OptionsSpec WireSpec.
From Verif.Proofs Require Import GraphqlProofs ProtobufProofs CliCases EndCases WireProofs WireCases.
Import ListNotations.
Local Open Scope string_scope.

(** C129. If tables only get columns at their end, programs with the old and with the new protobuf file understand each
    other. False: a column added to a table with a reference takes over the number of the reference. The option
    relationTagStart does not help, since the program ignores it (C60). *)
Theorem C129_refuted : exists w fs fs' v f out s s' text text' l l',
  real_world w /\ v "input" = Some f /\ v "output" = Some out /\ v "relationTagStart" = Some "100" /\
  load_file w fs f = Loaded s /\ load_file w fs' f = Loaded s' /\ columns_added s s' /\
  run w fs GeneratePb v = ([(out, text)], Done) /\ run w fs' GeneratePb v = ([(out, text')], Done) /\
  read_proto text = Some l /\ read_proto text' = Some l' /\ ~ still_understood l l'.
Proof. exact number_taken. Qed.
Print Assumptions C129_refuted.

(** True of the generator for all options if no table with references gets columns, or if the numbers of references
    start above those of all columns of the new version. *)
Theorem C129_partial : forall camel lc o g s s' text text',
  po_filter o = get_table_filter g -> one_line (po_package o) -> one_line (po_go_package o) ->
  (forall z, z = s \/ z = s' ->
    pb_names_ok camel lc (get_prefix (po_prefix o)) (po_remove o) (s_tables z) (filter (passes (po_filter o)) (s_tables z)) /\
    forall t, In t (s_tables z) -> fits (po_start o) (length (t_cols t))) ->
  columns_added s s' -> room_left (po_start o) (po_decr o) s s' ->
  pb_generate camel lc o s = Ok text -> pb_generate camel lc o s' = Ok text' ->
  exists l l', read_proto text = Some l /\ read_proto text' = Some l' /\ still_understood l l'.
Proof. exact understood. Qed.
Print Assumptions C129_partial.

(** With numbers from 100 on, both tables may get columns, also one with another reference. *)
Definition wire_old : schema := wire_schema [] [].
Definition wire_new : schema := wire_schema [wire_mail] [wire_mail; wire_boss].
Example C129_partial_case :
  (forall z, z = wire_old \/ z = wire_new ->
    pb_names_ok pb_same pb_same (get_prefix (po_prefix (pb_opt 100 false (get_table_filter "")))) [] (s_tables z)
      (filter (passes (get_table_filter "")) (s_tables z)) /\
    forall t, In t (s_tables z) -> fits 100 (length (t_cols t))) /\
  columns_added wire_old wire_new /\ room_left 100 false wire_old wire_new /\
  match pb_generate pb_same pb_same (pb_opt 100 false (get_table_filter "")) wire_new with
  | Ok text => read_proto text
  | Panic => None
  end = Some [PSyntax "proto3"; PPackage "octopus"; POption "go_package" "model";
    PMessage "group" [mkRField false "int64" "id" 1; mkRField false "string" "mail" 2];
    PMessage "user" [mkRField false "int64" "id" 1; mkRField false "int64" "group_id" 2; mkRField false "string" "mail" 3;
      mkRField false "int64" "boss" 4; mkRField false "group" "group" 100; mkRField false "user" "user" 101]].
Proof.
  refine (conj _ (conj (wire_added _ _) (conj _ _))).
  - intros z [->| ->]; (split; [ | intros t [<-|[<-|[]]]; vm_compute; repeat split; discriminate ]); intros t I; cbn in I; destruct I as [<-|[<-|[]]];
      (split; [ apply wordy_ok; reflexivity | split;
        [ intros c J; cbn in J; repeat (destruct J as [<-|J]; [ split; [ apply wordy_ok; reflexivity | vm_compute; tauto ] | ]); destruct J
        | intros r u J T; apply target_in in T as [T _]; cbn in T; destruct T as [<-|[<-|[]]]; split; apply wordy_ok; reflexivity ] ]).
  - intros t t' _ [<-|[<-|[]]] _; right; right; split; reflexivity.
  - vm_compute. reflexivity.
Qed.
