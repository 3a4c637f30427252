(** The texts of schema files (C105) *)
From Coq Require Import String Ascii List NArith Bool.
From Verif.Model Require Import GoString Util Octopus Common Json JsonText Cli.
From Verif.Spec Require Import Text OctopusSpec JsonSpec JsonGrammar.
From Verif.Proofs Require Import JsonGrammarRead.
Import ListNotations.
Local Open Scope string_scope.

(** C105. The reader of schema files accepts the JSON texts of RFC 8259 that are nested at most 10000 deep and nothing
    else, with their values. *)
Theorem C105_texts : forall text j, read_text text = Some j <-> json_text text j /\ within 10000 j.
Proof. exact read_iff. Qed.
Print Assumptions C105_texts.

(** A file with any other content is an error. *)
Theorem C105_refused : forall w fs name text, fs name = Some text -> (forall j, json_text text j -> ~ within 10000 j) ->
  load_file w fs name = LoadFailed.
Proof. exact not_json_fails. Qed.
Print Assumptions C105_refused.

(** What is written for a schema is a JSON text, whatever bytes its strings have. *)
Theorem C105_written : forall sortf s text, to_text sortf s = Some text -> exists j, json_text text j /\ within 10000 j.
Proof. exact written_json. Qed.
Print Assumptions C105_written.

Example C105_case : json_text ex_json_text ex_json_value /\ within 10000 ex_json_value.
Proof. exact ex_json_ok. Qed.
Example C105_refused_case : forall text, In text [""; "{} x"; "[1,]"; "{""a"":1,}"; "01"; "1."; ".5"; "+1"; "1e"; "'a'"; """\x"""; "[1 2]";
  "nul"; "{a:1}"; "[1"; """a"] -> forall j, ~ json_text text j.
Proof. exact ex_not_json. Qed.
