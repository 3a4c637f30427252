(** Descriptions that make a difference without the option comments *)
From Coq Require Import String Ascii List NArith Bool.
From Verif.Model Require Import GoString Util Octopus Common Cli.
From Verif.Spec Require Import OctopusSpec OptionsSpec MattersSpec WordsSpec.
From Verif.Proofs Require Import CliCases EndCases MattersProofs MattersCases ComparedCases.
Import ListNotations.
Local Open Scope string_scope.

(** a table with a name and descriptions; auto says whether the key counts by itself *)
Definition worded (n words notes : string) (auto : bool) : schema :=
  mkSchema "me" "store" "1"
    [mkTable n [mkCol "id" "int64" words 0 0 true true false auto "" "" [] None;
                mkCol "name" "varchar" "" 40 0 true false true false "" "" [] None] notes "g" "" []].
Definition plain_values : values := option_values [("from", "a.json"); ("to", "b.json"); ("input", "a.json"); ("output", "o"); ("groups", "")].

Lemma plain_off : without_comments plain_values.
Proof. intros x H. discriminate H. Qed.
Lemma worded_same : forall n x y p q auto, same_but_words (worded n x p auto) (worded n y q auto).
Proof. intros. unfold same_but_words. pairwise; exfalso; match goal with H : _ /\ _ |- _ => destruct H end; congruence. Qed.

Lemma matters : forall c (P : schema -> schema -> Prop) a b b', same_but_words b b' -> P a b ->
  load_file end_world (ex_files a b) "a.json" = Loaded a -> load_file end_world (ex_files a b) "b.json" = Loaded b ->
  load_file end_world (ex_files a b') "b.json" = Loaded b' -> same_but_words a a ->
  snd (run end_world (ex_files a b) c plain_values) = Done /\ snd (run end_world (ex_files a b') c plain_values) = Done /\
  fst (run end_world (ex_files a b) c plain_values) <> fst (run end_world (ex_files a b') c plain_values) -> words_matter c P.
Proof.
  intros c P a b b' S H L1 L2 L3 R D. exists end_world, (ex_files a b), (ex_files a b'), plain_values, "a.json", "b.json", a, b, a, b'.
  exact (conj end_real (conj (fun _ _ _ => eq_refl) (conj plain_off (conj eq_refl (conj eq_refl
    (conj L1 (conj L2 (conj L1 (conj L3 (conj R (conj S (conj H D)))))))))))).
Qed.

Ltac shown := vm_compute; refine (conj eq_refl (conj eq_refl _)); discriminate.
Lemma renamed_differs : forall c, In c [DiffMd; DiffFlyway; DiffLiquibase] -> words_matter c (fun _ _ => True).
Proof.
  intros c C.
  apply (matters c _ (worded "a" "" "" false) (worded "b" "" "" false) (worded "b" "key" "" false) (worded_same _ _ _ _ _ _) I);
    [ vm_compute; reflexivity | vm_compute; reflexivity | vm_compute; reflexivity | apply worded_same | ].
  destruct C as [<-|[<-|[<-|[]]]]; shown.
Qed.
Lemma script_differs : words_matter DiffFlyway no_new_tables.
Proof.
  apply (matters _ _ (worded "a" "" "" false) (worded "a" "" "" true) (worded "a" "key" "" true) (worded_same _ _ _ _ _ _));
    [ intros t [<-|[]]; now left | vm_compute; reflexivity | vm_compute; reflexivity | vm_compute; reflexivity | apply worded_same | ].
  shown.
Qed.
Lemma log_differs : exists w fs fs' v f s s', real_world w /\ without_comments v /\ v "input" = Some f /\
  load_file w fs f = Loaded s /\ load_file w fs' f = Loaded s' /\ same_but_words s s' /\
  snd (run w fs GenerateLiquibase v) = Done /\ snd (run w fs' GenerateLiquibase v) = Done /\
  fst (run w fs GenerateLiquibase v) <> fst (run w fs' GenerateLiquibase v).
Proof.
  exists end_world, (ex_files (worded "a" "" "" false) (worded "a" "" "" false)), (ex_files (worded "a" "" "notes" false) (worded "a" "" "" false)),
    plain_values, "a.json", (worded "a" "" "" false), (worded "a" "" "notes" false).
  refine (conj end_real (conj plain_off (conj eq_refl (conj _ (conj _ (conj (worded_same _ _ _ _ _ _) _)))))).
  - vm_compute; reflexivity.
  - vm_compute; reflexivity.
  - shown.
Qed.
