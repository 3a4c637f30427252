(** Messages about schemas (C143) *)
From Coq Require Import String Ascii List NArith Bool Sorting.Permutation Sorting.Sorted.
From Verif.Model Require Import GoString Octopus Messages.
From Verif.Spec Require Import Text Reading OctopusSpec MarkdownReading MessageSpec.
From Verif.Proofs Require Import OctopusProofs MessageProofs.
Import ListNotations.
Local Open Scope string_scope.

(** C143. A message about a schema that cannot be saved names the first table and column that are wrong, and what is wrong with
    the column. False for names with quotes: different faults have the same message. *)
Theorem C143_refuted : exists s s' m, s <> s' /\ normalize_message isort_tables s = Some m /\ normalize_message isort_tables s' = Some m.
Proof. exact message_shared. Qed.
Print Assumptions C143_refuted.

(** The message about sets gives another limit than the code keeps to: 64 members are accepted. *)
Theorem C143_limit_refuted : exists s m s', normalize_message isort_tables s = Some m /\ read_message m = Some ("user", SetMembers "x" 65) /\
  (exists a, m = a ++ "(0 < count < 64)") /\ s' = mg_schema [mg_col "x" "set" (mg_values 64)] /\ normalize_message isort_tables s' = None.
Proof. exact message_limit. Qed.
Print Assumptions C143_limit_refuted.

(** True otherwise, in the order by groups and names: what is read from the message is true of the column, and all columns
    before it can be saved. *)
Theorem C143_partial : forall sortf s m, sorts_tables sortf -> no_quotes s -> normalize_message sortf s = Some m ->
  exists before t after cs c cs' f, Permutation (before ++ t :: after) (s_tables s) /\ StronglySorted table_le (before ++ t :: after) /\
    t_cols t = (cs ++ c :: cs')%list /\ (forall d, In d (flat_map t_cols before ++ cs) -> repairable d) /\
    read_message m = Some (t_name t, f) /\ has_fault c f.
Proof. exact message_read. Qed.
Print Assumptions C143_partial.

(** There is a message exactly if there is an error. *)
Theorem C143_none_partial : forall sortf s, sorts_tables sortf -> (normalize_message sortf s = None <-> snd (normalize sortf s) = None).
Proof. exact message_none. Qed.
Print Assumptions C143_none_partial.

(** The second table in the file is the first one by name; its second column is wrong, as is one of the other table. *)
Definition mg_two : schema := mkSchema "me" "store" "1"
  [mkTable "user" [mg_col "" "int" []] "" "" "" []; mkTable "post" [mg_col "id" "BIGINT" []; mg_col "at" "Instant" []] "" "" "" []].
Example C143_case : sorts_tables isort_tables /\ no_quotes mg_two /\ normalize_message isort_tables mg_two = Some "table: 'post': column 'at' type 'instant' is invalid" /\
  read_message "table: 'post': column 'at' type 'instant' is invalid" = Some ("post", WrongType "at" "instant") /\
  normalize_message isort_tables (mg_schema [mg_col "" "int" []]) = Some "table: 'user': column name is empty. type: int32" /\
  normalize_message isort_tables (mg_schema [mg_col "kind" "ENUM" []]) = Some "table: 'user': column 'kind' has invalid values: empty enum values".
Proof.
  split; [exact isort_sorts|]. split; [|split; [|split; [|split]]]; try (vm_compute; reflexivity).
  intros t I. repeat (destruct I as [<-|I]); try destruct I; (split; [cbn; intuition discriminate|]); intros c J;
    repeat (destruct J as [<-|J]); try destruct J; cbn; intuition discriminate.
Qed.
