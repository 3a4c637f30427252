(** Properties of octopus v1 schemas as values (/repo/format/ojson/table.go, column.go) *)
From Coq Require Import String Ascii List NArith Bool Sorting.Permutation Sorting.Sorted.
From Verif.Model Require Import GoString Util Octopus Common Json JsonText Ojson OjsonText OjsonApi.
From Verif.Spec Require Import Order Text OctopusSpec OjsonSpec FormatSpec JsonSpec V1Spec V1ApiSpec.
From Verif.Proofs Require Import OjsonProofs OctopusProofs JsonTextProofs V1Proofs V1ApiProofs.
Import ListNotations.
Local Open Scope string_scope.

(** C133. A v1 schema that is saved is a v1 document that says what the schema says, with its types
    under their usual names and its tables sorted, and reading it gives exactly that back. *)
Theorem C133_saved : forall sortf s text s', sorts_v1 sortf -> v1_fits_u16 s -> v1_utf8 s ->
  v1_to_text sortf s = Ok (text, s') ->
  v1_repaired s s' /\ exists j, read_text text = Some j /\ v1_doc j s' /\ v1_from_json j = Some s'.
Proof. exact v1_saved. Qed.
Print Assumptions C133_saved.

(** Saving stops with a panic exactly if a column of a known type has no name. *)
Theorem C133_panic : forall sortf s, sorts_v1 sortf ->
  (v1_to_text sortf s = Panic <-> exists c, In c (v1_columns s) /\ v1_known (o_type c) /\ o_name c = "").
Proof. exact v1_save_panics. Qed.
Print Assumptions C133_panic.

(** Saving the schema again writes the same text, and importing the saved schema gives what importing
    the schema itself gives, whatever sort is used, if no two tables of a group have the same name. *)
Theorem C133_again : forall sortf sortf' s text s', sorts_v1 sortf -> sorts_v1 sortf' -> v1_distinct s ->
  v1_to_text sortf s = Ok (text, s') -> v1_to_text sortf' s' = Ok (text, s') /\ import_v1 sortf' s' = import_v1 sortf s.
Proof. exact v1_saved_again. Qed.
Print Assumptions C133_again.

Definition v1_small : v1_schema :=
  mkV1Schema "" "shop" "" [
    mkV1Table "user" [mkV1Col "id" "BigInt" "" 0 0 true true false true "" None;
                      mkV1Col "score" "Double" "" 5 0 false false false true "0" None] "" "b" "";
    mkV1Table "order" [mkV1Col "user" "long" "" 0 0 false false false false "" (Some (mkV1Ref "user" "id"))] "" "a" ""].
Definition v1_small_saved : v1_schema :=
  mkV1Schema "" "shop" "" [
    mkV1Table "order" [mkV1Col "user" "long" "" 0 0 false false false false "" (Some (mkV1Ref "user" "id"))] "" "a" "";
    mkV1Table "user" [mkV1Col "id" "long" "" 0 0 true true false true "" None;
                      mkV1Col "score" "decimal" "" 5 0 false false false false "0" None] "" "b" ""].
Definition v1_small_text : string :=
"{
  ""name"": ""shop"",
  ""tables"": [
    {
      ""name"": ""order"",
      ""columns"": [
        {
          ""name"": ""user"",
          ""type"": ""long"",
          ""ref"": {
            ""table"": ""user"",
            ""column"": ""id""
          }
        }
      ],
      ""group"": ""a""
    },
    {
      ""name"": ""user"",
      ""columns"": [
        {
          ""name"": ""id"",
          ""type"": ""long"",
          ""notnull"": true,
          ""pk"": true,
          ""autoinc"": true
        },
        {
          ""name"": ""score"",
          ""type"": ""decimal"",
          ""size"": 5,
          ""default"": ""0""
        }
      ],
      ""group"": ""b""
    }
  ]
}".
Example C133_case : sorts_v1 isort_v1 /\ v1_fits_u16 v1_small /\ v1_utf8 v1_small /\ v1_distinct v1_small /\
  v1_to_text isort_v1 v1_small = Ok (v1_small_text, v1_small_saved) /\ v1_to_text isort_v1 v1_unnamed = Panic.
Proof.
  split; [exact isort_v1_sorts|]. split; [|split; [|split; [|split]]].
  - intros c C. cbn in C. repeat (destruct C as [<-|C]; [split; reflexivity|]). destruct C.
  - intros x X. cbn in X. repeat (destruct X as [<-|X]; [apply utf8_ascii; reflexivity|]). destruct X.
  - repeat constructor; cbn; intuition discriminate.
  - vm_compute; reflexivity.
  - vm_compute; reflexivity.
Qed.

(** C134. What a v1 schema answers: the last and the first table of a name, the last column of a name, the
    names of the keys, each once, the groups, each once and in order, and whether a column differs from another in
    nothing but name and reference. A column is added at the end, and no column is not added. *)
Theorem C134_answers : forall s t,
  (forall n, last_named o_tname (o_tables s) n (v1_tables_by_name (o_tables s) n)) /\
  (forall n, first_named o_tname (o_tables s) n (v1_table_by_name (o_tables s) n)) /\
  (forall n, last_named o_name (o_cols t) n (v1_column_by_name (o_cols t) n)) /\
  lists (v1_pk_name_set t) (v1_keys t) /\ lists (v1_uq_name_set t) (v1_uniques t) /\
  strictly_increasing (v1_groups s) /\ (forall g, In g (v1_groups s) <-> exists t, In t (o_tables s) /\ o_group t = g) /\
  (forall c d ex, v1_is_renamed c d ex = true <-> v1_only_renamed ex c d) /\
  (forall c, o_cols (v1_add_column t (Some c)) = (o_cols t ++ [c])%list) /\ v1_add_column t None = t.
Proof. exact v1_answers. Qed.
Print Assumptions C134_answers.

(** The imported schema has the same groups, and if no two tables have the same name it answers questions about
    tables, keys and columns in the same way. *)
Theorem C134_groups : forall sortf s s', sorts_v1 sortf -> import_v1 sortf s = Ok s' -> groups s' = v1_groups s.
Proof. exact imported_groups. Qed.
Print Assumptions C134_groups.
Theorem C134_tables : forall sortf s s', sorts_v1 sortf -> import_v1 sortf s = Ok s' -> NoDup (map o_tname (o_tables s)) ->
  forall n, match v1_table_by_name (o_tables s) n with
            | None => table_by_name (s_tables s') n = None
            | Some t => exists t', table_by_name (s_tables s') n = Some t' /\ same_table t t' /\
                pk_name_set t' = v1_pk_name_set t /\ uq_name_set t' = v1_uq_name_set t /\
                forall m, match v1_column_by_name (o_cols t) m with
                          | None => column_name_map (t_cols t') m = None
                          | Some c => exists c', column_name_map (t_cols t') m = Some c' /\ same_column c c'
                          end
            end.
Proof. exact imported_named. Qed.
Print Assumptions C134_tables.

(** Full statement: two columns are the same but for their name exactly if the imported ones are. False both ways,
    because the import takes the description as default value: columns with different default values become the
    same, and columns that differ in their description only are different also when descriptions do not count.
    Missing here: these two. *)
Theorem C134_renamed_refuted :
  (exists c d, v1_normalize_col c = Ok c /\ v1_normalize_col d = Ok d /\ v1_is_renamed c d false = false /\
     is_renamed (from_v1_column c) (from_v1_column d) false = true) /\
  (exists c d, v1_normalize_col c = Ok c /\ v1_normalize_col d = Ok d /\ v1_is_renamed c d true = true /\
     is_renamed (from_v1_column c) (from_v1_column d) true = false).
Proof. exact imported_not_renamed. Qed.
Print Assumptions C134_renamed_refuted.
Theorem C134_renamed_partial : forall c d, v1_is_renamed c d false = true ->
  is_renamed (from_v1_column c) (from_v1_column d) false = true.
Proof. exact imported_renamed. Qed.
Print Assumptions C134_renamed_partial.

Example C134_case :
  v1_groups v1_small = ["a"; "b"] /\
  option_map v1_pk_name_set (v1_table_by_name (o_tables v1_small) "user") = Some ["id"] /\
  v1_is_renamed (mkV1Col "a" "int" "x" 1 0 true false false false "" None)
    (mkV1Col "b" "int" "x" 1 0 true false false false "" (Some (mkV1Ref "t" "c"))) false = true /\
  NoDup (map o_tname (o_tables v1_small)) /\ exists s', import_v1 isort_v1 v1_small = Ok s'.
Proof.
  split; [vm_compute; reflexivity|]. split; [vm_compute; reflexivity|]. split; [vm_compute; reflexivity|].
  split; [repeat constructor; cbn; intuition discriminate|]. eexists. vm_compute. reflexivity.
Qed.
