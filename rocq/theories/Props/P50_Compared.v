(** What the comparisons look at (C127) *)
From Coq Require Import String Ascii List NArith Bool.
From Verif.Model Require Import GoString Util Octopus Common Cli.
From Verif.Spec Require Import OctopusSpec OptionsSpec MattersSpec.
From Verif.Proofs Require Import CliCases EndCases MattersProofs MattersCases ComparedProofs ComparedCases.
Import ListNotations.
Local Open Scope string_scope.

(** C127. What a comparison writes depends only on the attributes listed for it, one list for the old schema and one
    for the new: *)
Theorem C127_only : forall w fs fs' c v lf lt nf nt a b a' b',
  compares c = Some (lf, lt) -> by_key (w_ord_tables w) -> v "from" = Some nf -> v "to" = Some nt ->
  load_file w fs nf = Loaded a -> load_file w fs nt = Loaded b -> load_file w fs' nf = Loaded a' -> load_file w fs' nt = Loaded b' ->
  same_schema (fun x => In x lf) a a' -> same_schema (fun x => In x lt) b b' -> run w fs c v = run w fs' c v.
Proof. exact only_compared. Qed.
Print Assumptions C127_only.

(** and on every one of them. *)
Theorem C127_each : forall c lf lt, compares c = Some (lf, lt) ->
  (forall a, In a lf -> decides c a true) /\ (forall a, In a lt -> decides c a false).
Proof. exact each_compared. Qed.
Print Assumptions C127_each.

(** An index added to a table is no change in a change log; neither is a table that moves to another group, except that
    it is left out if its new group is not asked for. *)
Definition shelf (g : string) (ix : list index) : schema :=
  mkSchema "me" "store" "1"
    [mkTable "a" [mkCol "id" "int64" "" 0 0 true true false true "" "" [] None;
                  mkCol "name" "varchar" "" 40 0 true false true false "" "" [] None] "" g "" ix].
Example C127_only_case :
  compares DiffLiquibase <> None /\
  load_file end_world (ex_files (shelf "g" []) (shelf "g" [mkIdx "ix" ["name"]])) "b.json" = Loaded (shelf "g" [mkIdx "ix" ["name"]]) /\
  run end_world (ex_files (shelf "g" []) (shelf "g" [mkIdx "ix" ["name"]])) DiffLiquibase pair_values =
    run end_world (ex_files (shelf "g" []) (shelf "g" [])) DiffLiquibase pair_values /\
  run end_world (ex_files (shelf "g" []) (shelf "g" [mkIdx "ix" ["name"]])) DiffFlyway pair_values = ([("o", "")], Done) /\
  run end_world (ex_files (shelf "k" []) (shelf "g" [])) DiffFlyway pair_values = ([("o", "")], Done) /\
  snd (run end_world (ex_files (shelf "g" []) (shelf "k" [])) DiffFlyway pair_values) = Done /\
  text_written (run end_world (ex_files (shelf "g" []) (shelf "k" [])) DiffFlyway pair_values) <> "".
Proof.
  refine (conj _ (conj _ (conj _ (conj _ (conj _ (conj _ _)))))); try (vm_compute; reflexivity); [ discriminate | vm_compute; discriminate ].
Qed.
Example C127_each_case :
  text_written (run end_world (pair_files None None) DiffFlyway pair_values) <>
  text_written (run end_world (pair_files None (Some CRefRel)) DiffFlyway pair_values).
Proof. vm_compute. discriminate. Qed.
