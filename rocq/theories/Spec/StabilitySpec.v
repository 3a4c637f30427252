(** What should not matter to the commands: the order of the tables in a file, the layout of its text (C90), and
    saving a schema that was loaded (C91) *)
From Coq Require Import String List NArith Sorting.Permutation.
From Verif.Model Require Import GoString Octopus Json JsonText Cli.
From Verif.Spec Require Import OctopusSpec JsonSpec FormatSpec.
Import ListNotations.
Local Open Scope string_scope.

(** the commands that read schema files, or no file *)
Definition reads_schemas (c : command) : Prop := ~ In c [ImportMysql; ImportOjson; ImportStaruml; ImportXlsx].

(** the text is a document of docs/octopus-format.md with this meaning *)
Definition describes (text : string) (s : schema) : Prop :=
  exists j, read_text text = Some j /\ doc_schema false j s /\ fits_u16 s.

Definition same_but_order (a b : schema) : Prop :=
  Permutation (s_tables a) (s_tables b) /\ s_author a = s_author b /\ s_name a = s_name b /\ s_version a = s_version b.

(** the same file, or two descriptions of the same schema, with the tables in any order *)
Definition same_content (a b : option string) : Prop :=
  a = b \/
  exists x y s t, a = Some x /\ b = Some y /\ describes x s /\ describes y t /\ same_but_order s t /\ distinct_table_keys s.

(** C92: the Markdown report without changes *)
Definition no_changes (version : string) : string :=
  "# DB Schema changes

* from: `" ++ version ++ "`
* to: `" ++ version ++ "`
".
