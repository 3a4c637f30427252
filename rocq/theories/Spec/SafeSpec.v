(** Texts that can be put into other documents (C120) *)
From Coq Require Import String Ascii List NArith.
From Verif.Spec Require Import JsonSpec.
Import ListNotations.
Local Open Scope string_scope.

(** text of the characters that [P] allows *)
Inductive text_of (P : string -> Prop) : string -> Prop :=
| text_nil : text_of P ""
| text_cons x s : character x -> P x -> text_of P s -> text_of P (x ++ s).

(** U+2028 and U+2029, which end lines in scripts *)
Definition separators : list string :=
  [String "226" (String "128" (String "168" "")); String "226" (String "128" (String "169" ""))].

(** characters without a meaning in HTML and in scripts; the only control character is the end of a line *)
Definition harmless (x : string) : Prop :=
  ~ In x ["<"; ">"; "&"] /\ ~ In x separators /\ (forall a, x = String a "" -> a = "010"%char \/ (32 <= N_of_ascii a)%N).
