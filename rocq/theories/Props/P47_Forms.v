(** Values of the wrong form (C123) *)
From Coq Require Import String Ascii List NArith Bool.
From Verif.Model Require Import GoString Octopus Json Cli.
From Verif.Spec Require Import JsonGrammar CliSpec ShapeSpec.
From Verif.Proofs Require Import ShapeFiles.
Import ListNotations.
Local Open Scope string_scope.

(** C123. A schema file is read exactly if it is a JSON text whose values have the forms of the fields they are for. *)
Theorem C123_load : forall w fs name, load_file w fs name <> LoadFailed <->
  octopus_name name /\ exists text j, fs name = Some text /\ json_text text j /\ within 10000 j /\
    fits octopus_structs (w_float_ok w) (Pointer "Schema") j.
Proof. exact load_iff. Qed.
Print Assumptions C123_load.

(** Commands end with an error for any other input and write nothing: exports and generators, *)
Theorem C123_schemas : forall w fs c v text, In c schema_commands -> fs (given v "input") = Some text ->
  unfit octopus_structs (w_float_ok w) "Schema" text -> run w fs c v = ([], Failed).
Proof. exact schema_unfit. Qed.
Print Assumptions C123_schemas.

(** comparisons, *)
Theorem C123_diffs : forall w fs c v text, In c [DiffFlyway; DiffLiquibase; DiffMd] -> fs (given v "from") = Some text ->
  unfit octopus_structs (w_float_ok w) "Schema" text -> run w fs c v = ([], Failed).
Proof. exact diff_unfit. Qed.
Print Assumptions C123_diffs.

(** imports of files of version 1, *)
Theorem C123_v1 : forall w fs v text, fs (given v "input") = Some text -> unfit v1_structs (w_float_ok w) "Schema" text ->
  run w fs ImportOjson v = ([], Failed).
Proof. exact v1_unfit. Qed.
Print Assumptions C123_v1.

(** and of StarUML projects. *)
Theorem C123_staruml : forall w fs v text, fs (given v "input") = Some text -> unfit star_structs (w_float_ok w) "Element" text ->
  run w fs ImportStaruml v = ([], Failed).
Proof. exact star_unfit. Qed.
Print Assumptions C123_staruml.

(** Names in other case, nulls and members without a field fit; *)
Example C123_case : forall float, json_text odd_schema odd_value /\ within 10000 odd_value /\
  fits octopus_structs float (Pointer "Schema") odd_value.
Proof. exact odd_fits. Qed.
(** numbers that are too large, negative or fractional, texts for numbers, numbers for texts and so on do not. *)
Example C123_wrong : forall float text, In text wrong_schemas -> unfit octopus_structs float "Schema" text.
Proof. exact wrong_unfit. Qed.
Example C123_others : forall float,
  (forall text, In text ["[]"; "{""tables"": [{""columns"": [{""description"": 1}]}]}"; "{""tables"": [{""columns"": [{""unique"": 1}]}]}"] ->
    unfit v1_structs float "Schema" text) /\
  (forall text, In text ["[]"; "{""head"": 1}"; "{""reference"": ""x""}"; "{""ownedElements"": {}}"; "{""ownedElements"": [{""columns"": [{""nullable"": 0}]}]}"] ->
    unfit star_structs float "Element" text) /\
  (float "1e999" = false -> unfit star_structs float "Element" "{""length"": [1e999]}").
Proof. exact wrong_others. Qed.
