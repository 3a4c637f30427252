(** Whole commands, from the files they read to the files they write *)
From Coq Require Import String Ascii List Bool Sorting.Permutation Sorting.Sorted.
From Verif.Model Require Import GoString Octopus Mysql Cli.
From Verif.Spec Require Import Text OctopusSpec MysqlGrammar MysqlSpec XlsxSpec CliSpec.
Import ListNotations.
Local Open Scope string_scope.

(** the options a command cannot do without *)
Definition needed (c : command) : list string :=
  match c with
  | Init => []
  | DiffFlyway | DiffLiquibase | DiffMd => ["from"; "to"; "output"]
  | _ => ["input"; "output"]
  end.

(** the name is in the comma separated list *)
Definition listed (opt n : string) : Prop :=
  exists parts, (forall p, In p parts -> ~ char_in "," p) /\ opt = join "," parts /\ In n parts.

(** [s'] is [s] with the tables in order of their groups and names *)
Definition in_order (s s' : schema) : Prop :=
  Permutation (s_tables s') (s_tables s) /\ StronglySorted table_le (s_tables s') /\
  s_author s' = s_author s /\ s_name s' = s_name s /\ s_version s' = s_version s.

(** the world's SQL parser agrees with the grammar wherever the grammar has a meaning *)
Definition reads_sql (w : world) (reserved : string -> bool) : Prop :=
  forall text stmts, read_sql reserved text = Some stmts -> w_sql w text = Some stmts.

(** what is saved as a workbook is opened again with the same cells *)
Definition keeps_workbooks (w : world) : Prop :=
  forall wb, exists wb', w_open_xlsx w (w_save_xlsx w wb) = Some wb' /\ reads_as wb wb'.

(** the values of a switch that mean yes *)
Definition switched_on (v : values) (name : string) : Prop := In (given v name) ["1"; "t"; "T"; "TRUE"; "true"; "True"].
