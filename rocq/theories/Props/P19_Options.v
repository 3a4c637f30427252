(** The options of the commands (C82) *)
From Coq Require Import String Ascii List NArith Bool.
From Verif.Model Require Import GoString Octopus Cli.
From Verif.Spec Require Import OptionsSpec.
From Verif.Proofs Require Import CliCases CliOptions.
Import ListNotations.
Local Open Scope string_scope.

(** C82. Every documented option exists with the documented names and environment variable... *)
Theorem C82_declared : forall c n k e, In (n, k, e) (documented_options c) ->
  exists f, In f (command_flags c) /\ fl_name f = n /\ incl k (fl_aliases f) /\ fl_env f = e.
Proof. exact documented_declared. Qed.
Print Assumptions C82_declared.

(** ... no name stands for two options of a command... *)
Theorem C82_distinct : forall c, NoDup (option_words c).
Proof. exact words_distinct. Qed.
Print Assumptions C82_distinct.

(** ... and it has an effect. False for some. *)
Theorem C82_refuted : exists c n k e, In (n, k, e) (documented_options c) /\ ignored c n.
Proof. exact dead_documented. Qed.
Print Assumptions C82_refuted.

(** exactly these are ignored, documented or not *)
Theorem C82_ignored_refuted : forall c n, In (c, n) dead_options -> ignored c n.
Proof. exact dead_ignored. Qed.
Print Assumptions C82_ignored_refuted.

Theorem C82_effect_partial : forall c f, In f (command_flags c) -> ~ In (c, fl_name f) dead_options -> has_effect c (fl_name f).
Proof. exact live_effect. Qed.
Print Assumptions C82_effect_partial.

(** the two notions exclude each other *)
Theorem C82_exclusive_partial : forall c n, ignored c n -> ~ has_effect c n.
Proof. exact ignored_no_effect. Qed.
Print Assumptions C82_exclusive_partial.

(** An option documented as a flag to set can be given without a value. False for useUTC of SQLAlchemy. *)
Theorem C82_switch_refuted : exists c n f, In (c, n) documented_switches /\ In f (command_flags c) /\ fl_name f = n /\
  fl_bool f = false.
Proof. exact switch_refuted. Qed.
Print Assumptions C82_switch_refuted.

Theorem C82_switch_partial : forall c n f, In (c, n) documented_switches -> In f (command_flags c) -> fl_name f = n ->
  c <> GenerateSqlalchemy -> fl_bool f = true.
Proof. exact switch_others. Qed.
Print Assumptions C82_switch_partial.

(** with and without the option "comments" *)
Example C82_case :
  run sample_world sales_files DiffMd (option_values [("from", "a.json"); ("to", "b.json"); ("output", "o.md"); ("groups", "g1")]) <>
  run sample_world sales_files DiffMd (option_values [("from", "a.json"); ("to", "b.json"); ("output", "o.md"); ("groups", "g1"); ("comments", "true")]) /\
  run sample_world sales_files DiffMd (option_values [("from", "a.json"); ("to", "b.json"); ("output", "o.md")]) =
  run sample_world sales_files DiffMd (option_values [("from", "a.json"); ("to", "b.json"); ("output", "o.md"); ("author", "x")]).
Proof. split; [vm_compute; discriminate|vm_compute; reflexivity]. Qed.
