(** What the exporters and generators look at (C126) *)
From Coq Require Import String Ascii List NArith Bool.
From Verif.Model Require Import GoString Util Octopus Common Cli.
From Verif.Spec Require Import OctopusSpec OptionsSpec MattersSpec.
From Verif.Proofs Require Import CliCases EndCases MattersProofs MattersCases.
Import ListNotations.
Local Open Scope string_scope.

(** C126. What an exporter or generator writes depends only on the attributes listed for it: *)
Theorem C126_only : forall w fs fs' c v l n s r,
  looks_at c = Some l -> v "input" = Some n -> load_file w fs n = Loaded s -> load_file w fs' n = Loaded r ->
  same_schema (fun a => In a l) s r -> run w fs c v = run w fs' c v.
Proof. exact only_these. Qed.
Print Assumptions C126_only.

(** and on every one of them. *)
Theorem C126_each : forall c l a, looks_at c = Some l -> In a l ->
  exists w fs fs' v n s r, real_world w /\ v "input" = Some n /\ load_file w fs n = Loaded s /\
    load_file w fs' n = Loaded r /\ same_schema (fun b => b <> a) s r /\
    snd (run w fs c v) = Done /\ snd (run w fs' c v) = Done /\ fst (run w fs c v) <> fst (run w fs' c v).
Proof. exact each_one. Qed.
Print Assumptions C126_each.

(** Two schemas that differ in what a table is for, in a default value and in a reference have the same Python classes;
    the MySQL text of the two is not the same, but only because of the default value. *)
Definition told (d x : string) (r : option reference) : schema :=
  mkSchema "me" "store" "1"
    [mkTable "a" [mkCol "id" "int64" "" 0 0 true true false true "" "" [] None;
                  mkCol "name" "varchar" "" 40 0 true false true false x "" [] None;
                  mkCol "a_id" "int64" "" 0 0 false false false false "" "" [] r] d "g" "" []].
Definition told_file (d x : string) (r : option reference) : files := fun _ => Some (ex_text (told d x r)).
Example C126_only_case :
  let ref := Some (mkRef "a" "id" "n:1") in
  looks_at GenerateSqlalchemy <> None /\ matter_values "input" = Some "a.json" /\
  load_file end_world (told_file "" "" None) "a.json" = Loaded (told "" "" None) /\
  load_file end_world (told_file "people" "x" ref) "a.json" = Loaded (told "people" "x" ref) /\
  (exists n text, run end_world (told_file "" "" None) GenerateSqlalchemy matter_values = ([(n, text)], Done) /\
     run end_world (told_file "people" "x" ref) GenerateSqlalchemy matter_values = ([(n, text)], Done)) /\
  run end_world (told_file "people" "x" ref) ExportMysql matter_values =
    run end_world (told_file "" "x" None) ExportMysql matter_values /\
  run end_world (told_file "people" "x" ref) ExportMysql matter_values <>
    run end_world (told_file "people" "" ref) ExportMysql matter_values.
Proof.
  refine (conj _ (conj eq_refl (conj _ (conj _ (conj _ (conj _ _)))))); try (vm_compute; reflexivity).
  - discriminate.
  - eexists. eexists. split; vm_compute; reflexivity.
  - vm_compute. discriminate.
Qed.
Example C126_each_case :
  text_written (run end_world (matter_file None) GeneratePlantuml matter_values) <>
  text_written (run end_world (matter_file (Some CRefRel)) GeneratePlantuml matter_values) /\
  text_written (run end_world (matter_file None) GeneratePb matter_values) =
  text_written (run end_world (matter_file (Some CRefRel)) GeneratePb matter_values).
Proof. split; vm_compute; [ discriminate | reflexivity ]. Qed.
