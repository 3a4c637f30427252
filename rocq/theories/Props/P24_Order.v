(** The order in which maps are iterated over, which Go leaves open, and the order in which equal tables are sorted *)
From Coq Require Import String List NArith.
From Verif.Model Require Import GoString Octopus Cli.
From Verif.Spec Require Import OctopusSpec CliSpec DiffSpec OptionsSpec OrderSpec.
From Verif.Proofs Require Import CliCases CliOptions OrderProofs.
Import ListNotations.
Local Open Scope string_scope.

(** C93. Running a command twice on the same files gives the same result. True of the commands that do not iterate over
    maps ([C93_no_maps]); the import of Excel files, the generator of GORM structs and the comparisons do. Of these it is
    true, even for two ways to sort, unless tables have the same group and name, two models fit one table, or two tables or
    two columns of a table have new names ([C93_partial]). Otherwise it is false ([C93_refuted]). *)
Theorem C93_no_maps : forall w w' fs c v, same_libraries w w' -> w_sort w = w_sort w' -> w_sort_v1 w = w_sort_v1 w' ->
  ~ In c [ImportXlsx; GenerateGorm; DiffFlyway; DiffLiquibase; DiffMd] -> run w fs c v = run w' fs c v.
Proof. exact no_maps. Qed.
Print Assumptions C93_no_maps.

Theorem C93_partial : forall w w' fs c v, real_world w -> real_world w' -> same_libraries w w' -> order_free w fs c v ->
  run w fs c v = run w' fs c v.
Proof. exact orders_agree. Qed.
Print Assumptions C93_partial.

Theorem C93_refuted : forall c, In c [GenerateGorm; DiffFlyway; DiffLiquibase; DiffMd] -> order_shows c.
Proof. exact orders_differ. Qed.
Print Assumptions C93_refuted.

Example C93_case : real_world sample_world /\ real_world backwards_world /\ same_libraries sample_world backwards_world /\
  order_free sample_world report_files DiffMd order_values /\
  run backwards_world report_files DiffMd order_values = ([("out.go", "# DB Schema changes

* from: ``
* to: ``

## a
* rename table `a` → `c`

## b
* rename table `b` → `d`

## e
* rename column: `q` → `s`
")], Done).
Proof.
  split; [exact sample_real|]. split; [exact backwards_real|]. split; [repeat split|]. split; [exact report_free|].
  vm_compute. reflexivity.
Qed.
