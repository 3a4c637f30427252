(** A document made of calls of the Markdown writer *)
From Coq Require Import String List NArith Bool.
From Verif.Model Require Import MarkdownWriter.
From Verif.Spec Require Import Text Reading MarkdownReading.
Import ListNotations.
Local Open Scope string_scope.

Inductive call :=
| CLine (s : string) | CH1 (s : string) | CH2 (s : string) | CH3 (s : string)
| CCodes (lang : string) (ls : list string) | CCode (lang data : string) | CSqls (ls : list string) | CSql (data : string).
Definition written (c : call) : string :=
  match c with
  | CLine s => md_put_line s | CH1 s => md_h1 s | CH2 s => md_h2 s | CH3 s => md_h3 s
  | CCodes lang ls => md_codes lang ls | CCode lang data => md_code lang data
  | CSqls ls => md_sqls ls | CSql data => md_sql data
  end.
(** what a reader should see *)
Definition meant (c : call) : block :=
  match c with
  | CLine s => Plain s | CH1 s => Heading 1 s | CH2 s => Heading 2 s | CH3 s => Heading 3 s
  | CCodes lang ls => Fenced lang ls | CCode lang data => Fenced lang (lines data)
  | CSqls ls => Fenced "sql" ls | CSql data => Fenced "sql" (lines data)
  end.
Definition no_fence (l : string) : Prop := closes 3 l = false.
Definition lang_ok (lang : string) : Prop := one_line lang /\ has_backtick lang = false.
(** texts that need no escaping: one line each, no line that looks like something else *)
Definition call_ok (c : call) : Prop :=
  match c with
  | CLine s => one_line s /\ opens s = None /\ heading s = None
  | CH1 s | CH2 s | CH3 s => one_line s
  | CCodes lang ls => lang_ok lang /\ Forall (fun l => one_line l /\ no_fence l) ls
  | CCode lang data => lang_ok lang /\ Forall no_fence (lines data)
  | CSqls ls => Forall (fun l => one_line l /\ no_fence l) ls
  | CSql data => Forall no_fence (lines data)
  end.
Definition document (cs : list call) : string := fold_right (fun c r => written c ++ r) "" cs.
