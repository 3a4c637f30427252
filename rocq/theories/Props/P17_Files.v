(** C77: what is written to an octopus file is read from it again *)
From Coq Require Import String Ascii List NArith Bool Sorting.Permutation.
From Verif.Model Require Import GoString Util Octopus Common Json JsonText Cli.
From Verif.Spec Require Import Text OctopusSpec CommonSpec JsonSpec CliSpec.
From Verif.Proofs Require Import CliLoad CliCases.
Import ListNotations.
Local Open Scope string_scope.

(** every character of every text survives, if the texts are UTF-8 *)
Theorem C77_saved_file_loads_partial : forall w fs name s text,
  sorts_tables (w_sort w) -> fits_u16 s -> schema_utf8 s -> distinct_table_keys s -> octopus_name name ->
  to_text (w_sort w) s = Some text -> fs name = Some text ->
  exists s', schema_repaired s s' /\ load_file w fs name = Loaded s'.
Proof. exact saved_loads. Qed.
Print Assumptions C77_saved_file_loads_partial.

(** any bytes: those that are not part of a character are replaced, the order of the tables with equal
    keys may change, and nothing else happens *)
Theorem C77_any_bytes : forall w fs name s text,
  sorts_tables (w_sort w) -> fits_u16 s -> octopus_name name ->
  to_text (w_sort w) s = Some text -> fs name = Some text ->
  exists s1 s2 s3, schema_repaired s s1 /\ cleaned_schema s1 s2 /\ load_file w fs name = Loaded s3 /\
    Permutation (s_tables s3) (s_tables s2) /\
    s_author s3 = s_author s2 /\ s_name s3 = s_name s2 /\ s_version s3 = s_version s2 /\ valid_schema s3.
Proof. exact saved_loads_any. Qed.
Print Assumptions C77_any_bytes.

(** which schemas can be saved *)
Theorem C77_saved : forall sortf s, sorts_tables sortf ->
  (exists text, to_text sortf s = Some text) <-> forall c, In c (columns_of s) -> repairable c.
Proof. exact saved_iff. Qed.
Print Assumptions C77_saved.

(** the description of a valid schema does not survive if it is not UTF-8 *)
Theorem C77_refuted : exists s text s', valid_schema s /\ to_text isort_tables s = Some text /\
  load_file sample_world (fun _ => Some text) "db.json" = Loaded s' /\
  map t_desc (s_tables s') <> map t_desc (s_tables s).
Proof. exact latin1_lost. Qed.
Print Assumptions C77_refuted.

(** quotes, control characters, HTML characters, two-, three- and four-byte characters *)
Example C77_case :
  fits_u16 texts_case /\ schema_utf8 texts_case /\ distinct_table_keys texts_case /\ octopus_name "dir/db.JSON" /\
  exists text, to_text isort_tables texts_case = Some text /\
    load_file sample_world (fun _ => Some text) "dir/db.JSON" = Loaded texts_case.
Proof. exact texts_case_ok. Qed.
