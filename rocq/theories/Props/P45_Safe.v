(** Schema files can be put into other documents (C120) *)
From Coq Require Import String Ascii List NArith Bool Sorting.Permutation.
From Verif.Model Require Import GoString Util Octopus Json JsonText Cli.
From Verif.Spec Require Import JsonSpec CliSpec SafeSpec.
From Verif.Proofs Require Import SafeProofs.
Import ListNotations.
Local Open Scope string_scope.

(** C120. Whatever bytes a schema has, its file is UTF-8 text of characters that mean nothing in HTML and in scripts, *)
Theorem C120_file : forall sortf s text, to_text sortf s = Some text -> text_of harmless text.
Proof. exact file_safe. Qed.
Print Assumptions C120_file.

(** and so is the file that any importing command writes. *)
Theorem C120_command : forall w fs c v ws, (forall l, Permutation (w_sort_v1 w l) l) ->
  import_command c -> run w fs c v = (ws, Done) -> exists text, ws = [(given v "output", text)] /\ text_of harmless text.
Proof. exact import_safe. Qed.
Print Assumptions C120_command.

Theorem C120_utf8 : forall s, text_of harmless s -> utf8 s.
Proof. exact (text_utf8 harmless). Qed.
Print Assumptions C120_utf8.

Example C120_case :
  to_text (fun l => l) (mkSchema "<me>" ("a&b" ++ String "226" (String "128" (String "168" ""))) (String "255" "é") []) =
  Some "{
  ""author"": ""\u003cme\u003e"",
  ""name"": ""a\u0026b\u2028"",
  ""version"": ""\ufffdé""
}".
Proof. vm_compute. reflexivity. Qed.
