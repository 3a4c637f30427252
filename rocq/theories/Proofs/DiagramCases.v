(** A schema that all three texts for drawing tools can express *)
From Coq Require Import String Ascii List NArith Bool.
From Verif.Model Require Import GoString Octopus.
From Verif.Spec Require Import Text Reading OctopusSpec DbmlSpec PlantumlSpec QuickdbdSpec DiagramSpec.
From Verif.Proofs Require Import StringLemmas ReadingProofs DbmlProofs.
Import ListNotations.
Local Open Scope string_scope.

Definition drawn : schema :=
  mkSchema "" "db" "1"
    [mkTable "group" [mkCol "id" "int64" "unique id" 0 0 true true false true "" "" [] None;
                      mkCol "rate" "decimal" "" 10 2 false false false false "0.5" "" [] None;
                      mkCol "boss" "int64" "" 0 0 false false false false "" "" [] (Some (mkRef "user" "id" "n:1"))] "Groups" "" "" [];
     mkTable "user" [mkCol "id" "int64" "" 0 0 true true false true "" "" [] None;
                     mkCol "name" "varchar" "full name" 40 0 true false true false "none" "" [] None;
                     mkCol "group_id" "int64" "" 0 0 true false false false "" "" [] (Some (mkRef "group" "id" "1:1"))] "" "" "" []].

Lemma drawn_ok : drawable drawn.
Proof.
  assert (NC : forall c s, contains_char c s = false -> ~ char_in c s) by (intros; now apply contains_char_false).
  split; [|split].
  - split.
    + intros t J. cbn in J. destruct J as [<-|[<-|[]]]; apply word_b_ok; reflexivity.
    + intros c J. vm_compute in J.
      repeat (destruct J as [<-|J]; [split; [split; [apply word_b_ok; reflexivity|]; split; [vm_compute; tauto|]; split; [apply NC; reflexivity|];
        split; [apply NC; reflexivity|]; cbn; first [exact I | split; apply word_b_ok; reflexivity]
        | first [left; reflexivity | right; left; split; [now right|]; split; apply NC; reflexivity
                | right; right; split; [intros [H|H]; discriminate | reflexivity]]]|]). destruct J.
  - split.
    + intros t J. cbn in J. destruct J as [<-|[<-|[]]]; apply word_b_ok; reflexivity.
    + intros c J. vm_compute in J.
      repeat (destruct J as [<-|J]; [split; [apply word_b_ok; reflexivity|]; split; [apply word_b_ok; reflexivity|];
        cbn; first [exact I | apply word_b_ok; reflexivity]|]). destruct J.
  - split.
    + intros t J. cbn in J. destruct J as [<-|[<-|[]]]; (split; [apply word_b_ok; reflexivity | apply NC; reflexivity]).
    + intros c J. vm_compute in J.
      repeat (destruct J as [<-|J]; [split; [apply word_b_ok; reflexivity|]; split; [apply word_b_ok; reflexivity|];
        split; [apply NC; reflexivity|]; split; [apply NC; reflexivity|]; split; [apply NC; reflexivity|];
        cbn; first [exact I | split; apply word_b_ok; reflexivity]|]). destruct J.
Qed.
