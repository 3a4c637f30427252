(** The rest of /repo/format/diff/markdown.go:12-65 (MarkdownWriter) and /repo/util/string.go:46-61. Of these only
    WriteLine is used by the program (Model/DiffWriters.v). *)
From Coq Require Import String Ascii List NArith ZArith Bool.
From Verif.Model Require Import GoString Liquibase.
Import ListNotations.
Local Open Scope string_scope.

Definition md_nl : string := String "010" "".

(** markdown.go:22-26 WriteLine. The writers return what they write; the panic if writing fails is left out. *)
Definition md_put_line (s : string) : string := s ++ md_nl.
(** markdown.go:28-38 WriteH1, WriteH2, WriteH3 *)
Definition md_h1 (s : string) : string := md_put_line ("# " ++ s).
Definition md_h2 (s : string) : string := md_put_line ("## " ++ s).
Definition md_h3 (s : string) : string := md_put_line ("### " ++ s).
(** markdown.go:40-46 WriteCodes *)
Definition md_codes (lang : string) (ls : list string) : string :=
  md_put_line ("```" ++ lang) ++ fold_right (fun l r => md_put_line l ++ r) "" ls ++ md_put_line "```".
(** markdown.go:48-53 WriteCode; [data] is written as it is (markdown.go:16-20) *)
Definition md_code (lang data : string) : string :=
  md_put_line ("```" ++ lang) ++ data ++ md_put_line "" ++ md_put_line "```".
(** markdown.go:55-61 WriteSQL, WriteSQLs *)
Definition md_sql (data : string) : string := md_code "sql" data.
Definition md_sqls (ls : list string) : string := md_codes "sql" ls.

(** util/string.go:46-55 SQLValToInt; [None] is nil, otherwise the bytes of the value *)
Definition sql_val_to_int (v : option string) (default : Z) : Z :=
  match v with
  | None => default
  | Some s => match go_atoi s with None => default | Some z => z end
  end.
(** util/string.go:56-61 SQLValToString *)
Definition sql_val_to_string (v : option string) (default : string) : string :=
  match v with None => default | Some s => s end.
