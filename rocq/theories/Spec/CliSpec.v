(** What the commands promise *)
From Coq Require Import String Ascii List NArith Bool Sorting.Permutation Sorting.Sorted.
From Verif.Model Require Import GoString Octopus Cli.
From Verif.Spec Require Import Text OctopusSpec CommonSpec.
Import ListNotations.
Local Open Scope string_scope.

(** a file name with the extension of an octopus file *)
Definition octopus_name (f : string) : Prop :=
  exists pre e, f = pre ++ "." ++ e /\ clean_ext e /\ (to_lower e = "json" \/ to_lower e = "ojson").

(** [s'] is [s] with its tables in order and its columns made valid, and nothing else changed *)
Definition schema_repaired (s s' : schema) : Prop :=
  (exists ts, Permutation ts (s_tables s) /\ Forall2 table_repaired ts (s_tables s')) /\
  StronglySorted table_le (s_tables s') /\ valid_schema s' /\
  s_author s' = s_author s /\ s_name s' = s_name s /\ s_version s' = s_version s.

(** ** What a command writes *)

(** the commands that write one file, to the path given by the option "output" *)
Definition single_file (c : command) : Prop :=
  In c [Init; ImportMysql; ImportOjson; ImportStaruml; ImportXlsx; ExportDbml; ExportQuickdbd; ExportMysql;
        ExportXlsx; GenerateLiquibase; GeneratePb; DiffFlyway; DiffLiquibase; DiffMd].

(** the commands that write an octopus file *)
Definition import_command (c : command) : Prop := In c [Init; ImportMysql; ImportOjson; ImportStaruml; ImportXlsx].

(** the value of an option, empty if it is not given *)
Definition given (v : values) (name : string) : string := match v name with Some x => x | None => "" end.

(** a file name that ends in one of the extensions, in any letter case *)
Definition has_extension (es : list string) (f : string) : Prop :=
  exists pre e, f = pre ++ "." ++ e /\ clean_ext e /\ In (to_lower e) es.
