(** A column added to a table with a reference takes over the number of the reference *)
From Coq Require Import String Ascii List NArith ZArith Bool Lia.
From Verif.Model Require Import GoString Util Octopus Common Protobuf Cli.
From Verif.Spec Require Import Text OctopusSpec GraphqlSpec ProtobufSpec OptionsSpec WireSpec.
From Verif.Proofs Require Import ProtobufProofs CliCases EndCases WireProofs.
Import ListNotations.
Local Open Scope string_scope.

Definition wire_group (cs : list column) : table :=
  mkTable "group" (mkCol "id" "int64" "" 0 0 true true false true "" "" [] None :: cs) "" "" "" [].
Definition wire_user (cs : list column) : table :=
  mkTable "user" (mkCol "id" "int64" "" 0 0 true true false false "" "" [] None ::
                  mkCol "group_id" "int64" "" 0 0 true false false false "" "" [] (Some (mkRef "group" "id" "n:1")) :: cs) "" "" "" [].
Definition wire_schema (a b : list column) : schema := mkSchema "me" "store" "1" [wire_group a; wire_user b].
Definition wire_mail : column := mkCol "mail" "varchar" "" 40 0 true false false false "" "" [] None.
Definition wire_boss : column := mkCol "boss" "int64" "" 0 0 false false false false "" "" [] (Some (mkRef "user" "id" "n:1")).
Definition wire_values : values :=
  option_values [("input", "a.json"); ("output", "o"); ("package", "store"); ("relationTagStart", "100")].

Lemma wire_added : forall a b, columns_added (wire_schema [] []) (wire_schema a b).
Proof.
  intros a b. split.
  - constructor; [ intros [H|[]]; discriminate H | constructor; [ intros [] | constructor ] ].
  - intros t [<-|[<-|[]]].
    + exists (wire_group a), a. repeat split. now left.
    + exists (wire_user b), b. repeat split. right. now left.
Qed.

Lemma number_taken : exists w fs fs' v f out s s' text text' l l',
  real_world w /\ v "input" = Some f /\ v "output" = Some out /\ v "relationTagStart" = Some "100" /\
  load_file w fs f = Loaded s /\ load_file w fs' f = Loaded s' /\ columns_added s s' /\
  run w fs GeneratePb v = ([(out, text)], Done) /\ run w fs' GeneratePb v = ([(out, text')], Done) /\
  read_proto text = Some l /\ read_proto text' = Some l' /\ ~ still_understood l l'.
Proof.
  pose (a := wire_schema [] []). pose (b := wire_schema [] [wire_mail]).
  pose (ta := text_written (run end_world (ex_files a a) GeneratePb wire_values)).
  pose (tb := text_written (run end_world (ex_files b b) GeneratePb wire_values)).
  pose (l := match read_proto ta with Some l => l | None => [] end).
  pose (l' := match read_proto tb with Some l => l | None => [] end).
  exists end_world, (ex_files a a), (ex_files b b), wire_values, "a.json", "o", a, b, ta, tb, l, l'.
  refine (conj end_real (conj eq_refl (conj eq_refl (conj eq_refl (conj _ (conj _ (conj (wire_added [] [wire_mail]) (conj _ (conj _ (conj _ (conj _ _)))))))))));
    try (vm_compute; reflexivity).
  assert (E : l = [PSyntax "proto3"; PPackage "store"; PMessage "group" [mkRField false "int64" "id" 1];
    PMessage "User" [mkRField false "int64" "id" 1; mkRField false "int64" "groupId" 2; mkRField false "group" "group" 3]])
    by (vm_compute; reflexivity).
  assert (E' : l' = [PSyntax "proto3"; PPackage "store"; PMessage "group" [mkRField false "int64" "id" 1];
    PMessage "User" [mkRField false "int64" "id" 1; mkRField false "int64" "groupId" 2; mkRField false "string" "mail" 3;
                     mkRField false "group" "group" 4]]) by (vm_compute; reflexivity).
  rewrite E, E'. clear. intros U.
  destruct (U "User" _ (or_intror (or_intror (or_intror (or_introl eq_refl))))) as (fs & I & H).
  destruct (H (mkRField false "group" "group" 3)) as [J _]; [ right; right; now left | ].
  cbn in I. repeat (destruct I as [I|I]; [ try discriminate I | ]); [ | destruct I ].
  injection I as <-. cbn in J. repeat (destruct J as [J|J]; [ discriminate J | ]). exact J.
Qed.
