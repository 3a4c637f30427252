(** Concrete runs with options *)
From Coq Require Import String Ascii List NArith ZArith Bool.
From Verif.Model Require Import GoString Util Octopus Common Gorm Graphql Protobuf Sqlalchemy Jpa Liquibase Ojson Cli Strcase GoPath.
From Verif.Spec Require Import Text CommonSpec CliSpec OptionsSpec GroupSpec EndSpec WiringSpec.
From Verif.Spec Require Reading GormSpec GraphqlSpec ProtobufSpec SqlalchemySpec KotlinSpec.
From Verif.Proofs Require Import StringLemmas OctopusProofs CliCases CliOptions CliGroups EndToEnd EndCases WiringProofs OjsonProofs.
From Verif.Proofs Require GormText GraphqlProofs ProtobufProofs SqlalchemyMain JpaCases.
Import ListNotations.
Local Open Scope string_scope.

Definition wx_schema : schema := mkSchema "me" "db" "1"
  [mkTable "t_log" [mkCol "id" "int64" "" 0 0 true true false true "" "" [] None;
                    mkCol "user_id" "int64" "" 0 0 true false false false "" "" [] (Some (mkRef "t_user" "id" "n:1"))] "" "b" "" [];
   mkTable "t_user" [mkCol "id" "int64" "" 0 0 true true false true "" "" [] None;
                     mkCol "name" "varchar" "" 40 0 true false true false "" "" [] None;
                     mkCol "mail" "varchar" "" 40 0 true false true false "" "" [] None;
                     mkCol "seen" "datetime" "" 0 0 true false false false "" "" [] None] "" "a" "" []].
Definition wx_user : table := nth 1 (s_tables wx_schema) (mkTable "" [] "" "" "" []).
(** the tables in the order of the saved file *)
Definition wx_loaded : schema := ex_sorted wx_schema.
Definition wx_world : world :=
  mkWorld strcase_camel strcase_lower_camel strcase_snake (fun s => s ++ "s") path_join isort_tables isort_v1
    (fun _ => None) (fun _ => None) show_workbook (fun _ => true) show_log (fun _ => false)
    (fun l => l) (fun _ l => l) (fun l => l) (fun _ l => l) (fun _ l => l).
Definition wx_files : files := fun n => alist_find [("a.json", ex_text wx_schema)] n.
Definition wx_values (output : string) (l : list (string * string)) : values :=
  option_values (([("input", "a.json"); ("output", output); ("prefix", "a:P,b:Q"); ("removePrefix", "t_,v_"); ("groups", "a,c");
                  ("uniqueNameSuffix", "_uq"); ("package", "model")] ++ l)%list).
Definition wx_prefix (g : string) : string := if String.eqb g "a" then "P" else if String.eqb g "b" then "Q" else "".
Definition wx_annos (g : string) : list string := if String.eqb g "a" then ["@A"; "@B"] else if String.eqb g "b" then ["@C"] else [].
Definition wx_remove : list string := ["t_"; "v_"].
Definition wx_gorm := wx_values "m.go" [("embed", "Base:id,seen"); ("pointerAssociation", "true")].
Definition wx_kt := wx_values "out" [("annotation", "a:@A;@B,b:@C"); ("reposPackage", "repo"); ("idEntity", "IdEntity")].
Definition wx_sa := wx_values "m.py" [("useUTC", "true")].
Definition wx_pb := wx_values "m.proto" [("goPackage", "pb")].

Lemma wx_real : real_world wx_world.
Proof. exact sample_real. Qed.
Lemma wx_loads : load_file wx_world wx_files "a.json" = Loaded wx_loaded.
Proof. vm_compute. reflexivity. Qed.

Ltac no_char := let H := fresh in intros H; cbn in H; intuition discriminate.
Lemma wx_prefixes : prefix_for "a:P,b:Q" wx_prefix.
Proof.
  right. exists [("a", "P"); ("b", "Q")]. split.
  - split; [discriminate|]. split; [reflexivity|]. intros g x [E|[E|[]]]; injection E as <- <-; (split; [no_char|split; no_char]).
  - intros g. unfold wx_prefix. destruct (String.eqb_spec g "a") as [->|A].
    + left. exists [], [("b", "Q")]. split; [reflexivity|]. cbn. intuition discriminate.
    + destruct (String.eqb_spec g "b") as [->|B].
      * left. exists [("a", "P")], []. split; [reflexivity|]. intros [].
      * right. split; [cbn; intuition congruence|reflexivity].
Qed.
Lemma wx_annotations : annotations_for "a:@A;@B,b:@C" wx_annos.
Proof.
  right. exists [("a", "@A;@B"); ("b", "@C")]. split.
  - split; [discriminate|]. split; [reflexivity|]. intros g x [E|[E|[]]]; injection E as <- <-; (split; [no_char|split; no_char]).
  - intros g. unfold wx_annos. destruct (String.eqb_spec g "a") as [->|A].
    + left. exists "@A;@B". split; [exists [], [("b", "@C")]; split; [reflexivity|cbn; intuition discriminate]|].
      split; [discriminate|]. split; [|reflexivity]. intros p [<-|[<-|[]]]; no_char.
    + destruct (String.eqb_spec g "b") as [->|B].
      * left. exists "@C". split; [exists [("a", "@A;@B")], []; split; [reflexivity|intros []]|].
        split; [discriminate|]. split; [|reflexivity]. intros p [<-|[]]; no_char.
      * right. split; [cbn; intuition congruence|reflexivity].
Qed.
Lemma wx_removed : parts_of "," "t_,v_" wx_remove.
Proof. split; [discriminate|]. split; [|reflexivity]. intros p [<-|[<-|[]]]; no_char. Qed.
Lemma wx_picked : picked (chosen "a,c") (s_tables wx_loaded) [wx_user].
Proof.
  assert (C : forall t, chosen "a,c" t <-> In (t_group t) ["a"; "c"]).
  { intros t. rewrite <- CliGroups.chosen_iff. exact (str_in_iff (t_group t) ["a"; "c"]). }
  assert (E : s_tables wx_loaded = [wx_user; nth 0 (s_tables wx_schema) (mkTable "" [] "" "" "" [])] \/
              s_tables wx_loaded = [nth 0 (s_tables wx_schema) (mkTable "" [] "" "" "" []); wx_user]) by (vm_compute; auto).
  destruct E as [-> | ->]; repeat first [apply picked_none|apply picked_in; [apply C; now left|]|apply picked_out; [rewrite C; cbn; intuition discriminate|]].
Qed.

Lemma wx_gorm_case :
  load_file wx_world wx_files (given wx_gorm "input") = Loaded wx_loaded /\ snd (run wx_world wx_files GenerateGorm wx_gorm) = Done /\
  prefix_for (given wx_gorm "prefix") wx_prefix /\ parts_of "," (given wx_gorm "removePrefix") wx_remove /\
  picked (chosen (given wx_gorm "groups")) (s_tables wx_loaded) [wx_user] /\
  embeds (given wx_gorm "embed") "Base" ["id"; "seen"] /\ switched_on wx_gorm "pointerAssociation" /\
  GormSpec.go_names_ok (w_camel wx_world) wx_prefix wx_remove (given wx_gorm "uniqueNameSuffix") (s_tables wx_loaded) [wx_user] /\
  Reading.one_line (given wx_gorm "package").
Proof.
  split; [exact wx_loads|]. split; [vm_compute; reflexivity|]. split; [exact wx_prefixes|]. split; [exact wx_removed|].
  split; [exact wx_picked|]. split.
  { exists "id,seen". split; [reflexivity|]. split; [discriminate|].
    split; [intros c I; apply WiringProofs.model_char_iff; cbn in I; repeat (destruct I as [->|I]; [reflexivity|]); destruct I|].
    split; [no_char|]. right. split; [discriminate|]. split; [discriminate|]. split; [|reflexivity]. intros p [<-|[<-|[]]]; no_char. }
  split; [vm_compute; auto 10|]. split; [|no_char].
  apply GormText.names_check; [left; reflexivity| |vm_compute; reflexivity].
  intros t [<-|[]]. exact (EndToEnd.picked_incl _ _ _ wx_picked wx_user (or_introl eq_refl)).
Qed.

Lemma wx_kt_case :
  load_file wx_world wx_files (given wx_kt "input") = Loaded wx_loaded /\ snd (run wx_world wx_files GenerateKt wx_kt) = Done /\
  annotations_for (given wx_kt "annotation") wx_annos /\ prefix_for (given wx_kt "prefix") wx_prefix /\
  KotlinSpec.kt_names_ok (w_camel wx_world) (w_lower_camel wx_world) wx_prefix wx_remove (given wx_kt "idEntity") (given wx_kt "relation")
    (given wx_kt "uniqueNameSuffix") [wx_user] /\
  KotlinSpec.package_ok (given wx_kt "package") /\ KotlinSpec.annotations (wx_annos (t_group wx_user)) ["A"; "B"] /\
  KotlinSpec.package_ok (given wx_kt "reposPackage") /\ KotlinSpec.keys wx_user <> [].
Proof.
  split; [exact wx_loads|]. split; [vm_compute; reflexivity|]. split; [exact wx_annotations|]. split; [exact wx_prefixes|].
  split.
  { destruct (JpaCases.kt_checked strcase_camel strcase_lower_camel
      (mkKtOpt (mkAM "" [] false) (mkPM "" [("a", "P"); ("b", "Q")] true) None "IdEntity" "model" "" wx_remove "repo" "_uq")
      (mkSchema "" "" "" [wx_user]) eq_refl) as (A & B & C).
    split; [exact A|]. split; [exact B|]. intros t [<-|[]]. exact (C wx_user (or_introl eq_refl)). }
  split; [apply JpaCases.package_checked; reflexivity|]. split; [apply (KotlinSpec.one_annotation "A"); [reflexivity|]; apply (KotlinSpec.one_annotation "B"); [reflexivity|constructor]|].
  split; [apply JpaCases.package_checked; reflexivity|]. vm_compute. discriminate.
Qed.

Lemma wx_sa_case :
  load_file wx_world wx_files (given wx_sa "input") = Loaded wx_loaded /\ snd (run wx_world wx_files GenerateSqlalchemy wx_sa) = Done /\
  switched_on wx_sa "useUTC" /\
  SqlalchemySpec.py_names_ok (w_camel wx_world) (w_snake wx_world) wx_prefix wx_remove (given wx_sa "uniqueNameSuffix") [wx_user].
Proof.
  split; [exact wx_loads|]. split; [vm_compute; reflexivity|]. split; [vm_compute; auto 10|].
  apply SqlalchemyMain.sa_checked; vm_compute; reflexivity.
Qed.

Lemma wx_pb_case :
  load_file wx_world wx_files (given wx_pb "input") = Loaded wx_loaded /\ snd (run wx_world wx_files GeneratePb wx_pb) = Done /\
  ProtobufSpec.pb_names_ok (w_camel wx_world) (w_lower_camel wx_world) wx_prefix wx_remove (s_tables wx_loaded) [wx_user] /\
  Reading.one_line (given wx_pb "package") /\ Reading.one_line (given wx_pb "goPackage") /\
  (forall t, In t (s_tables wx_loaded) -> ProtobufSpec.fits (-1) (length (t_cols t))).
Proof.
  split; [exact wx_loads|]. split; [vm_compute; reflexivity|]. split.
  { intros t [<-|[]]. split; [apply GraphqlProofs.wordy_ok; reflexivity|]. split; [|intros r u []].
    intros c J. cbn in J. repeat (destruct J as [<-|J]; [split; [apply GraphqlProofs.wordy_ok; reflexivity|vm_compute; tauto]|]). destruct J. }
  split; [no_char|]. split; [no_char|]. intros t I. vm_compute in I. destruct I as [<-|[<-|[]]]; vm_compute; intuition discriminate.
Qed.
