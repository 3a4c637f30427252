(** Concrete schemas for the examples *)
From Coq Require Import String Ascii List NArith Bool Arith Lia Sorting.Permutation.
From Verif.Model Require Import GoString Util Octopus Common Xlsx.
From Verif.Spec Require Import Text Order OctopusSpec XlsxSpec DiffSpec.
From Verif.Proofs Require Import StringLemmas ListLemmas TypeProofs XlsxText XlsxRound.
Import ListNotations.
Local Open Scope string_scope.

Lemma trim_right_ends : forall s, ~ ends_blank (trim_right s).
Proof.
  induction s as [|c s IH]; cbn [trim_right]; [apply no_ends_nil|].
  destruct (is_space c && String.eqb (trim_right s) "") eqn:E; [apply no_ends_nil|].
  intros [r [d [H B]]]. destruct r as [|x r]; cbn [append] in H.
  - injection H as -> H. rewrite H, B in E. discriminate.
  - injection H as -> H. apply IH. exists r, d. auto.
Qed.
Lemma trim_right_length : forall s, String.length (trim_right s) <= String.length s.
Proof.
  induction s as [|c s IH]; cbn [trim_right]; auto.
  destruct (is_space c && _); cbn [String.length]; lia.
Qed.
Lemma trim_left_length : forall s, String.length (trim_left s) <= String.length s.
Proof. induction s as [|c s IH]; cbn [trim_left]; auto. destruct (is_space c); cbn [String.length]; lia. Qed.

Lemma trim_fix : forall s, String.eqb (trim_space s) s = true -> trimmed s.
Proof.
  intros s H. apply String.eqb_eq in H. unfold trim_space in H. split.
  - intros [c [r [-> B]]]. assert (L := f_equal String.length H). cbn [trim_left] in L. rewrite B in L.
    assert (A1 := trim_right_length (trim_left r)). assert (A2 := trim_left_length r). cbn [String.length] in L. lia.
  - rewrite <- H. apply trim_right_ends.
Qed.

Lemma attr_fix : forall s, contains_char "," s = false -> String.eqb (trim_right s) s = true -> attr_value s.
Proof.
  intros s H1 H2. split; [now apply contains_char_false|]. apply String.eqb_eq in H2. rewrite <- H2. apply trim_right_ends.
Qed.

(** the schema of importer_test.go, shortened, with a second group *)
Definition xl_user : table :=
  mkTable "user"
    [mkCol "id" "int64" "" 0 0 false true false true "" "" [] None;
     mkCol "name" "varchar" "user table" 100 0 false false true false "" "" [] None;
     mkCol "group_id" "int64" "" 0 0 true false false false "" "" [] (Some (mkRef "group" "id" "n:1"));
     mkCol "price" "decimal" "" 20 5 true false false false "1.5" "" [] None;
     mkCol "updated_at" "datetime" "" 0 0 false false false false "fn::CURRENT_TIMESTAMP" "fn::CURRENT_TIMESTAMP" [] None]
    "" "common" "" [mkIdx "name_idx" ["name"; "group_id"]].
Definition xl_group : table :=
  mkTable "group" [mkCol "id" "int64" "" 0 0 false true false true "" "" [] None] "groups of users" "" "UserGroup" [].
Definition xl_schema : schema := mkSchema "me" "db" "1" [xl_group; xl_user].

Lemma xl_possible : sheets_possible (fun _ => true) xl_schema.
Proof.
  split; [reflexivity|]. split.
  - intros t [<-|[<-|[]]]; split; auto; discriminate.
  - intros t t' [<-|[<-|[]]] [<-|[<-|[]]] H; auto; discriminate.
Qed.

Ltac plain_col :=
  unfold plain_column, readable_type; cbn [c_name c_type c_desc c_size c_scale c_notnull c_pk c_uq c_autoinc c_default c_onupdate c_values c_ref];
  split; [discriminate|]; split; [apply trim_fix; vm_compute; reflexivity|];
  split; [split; [vm_compute; tauto|]; split; [reflexivity|]; split; [reflexivity|];
          first [now left|right; split; [discriminate|]; intros x Hx; cbn in Hx;
                 repeat (destruct Hx as [->|Hx]; [reflexivity|]); destruct Hx]|];
  split; [apply trim_fix; vm_compute; reflexivity|];
  split; [reflexivity || (intros; discriminate)|];
  split; [apply attr_fix; vm_compute; reflexivity|];
  split; [auto|]; split; [reflexivity|]; intros r Hr; try discriminate.

Lemma xl_plain : Forall plain_table (s_tables xl_schema).
Proof.
  constructor; [|constructor; [|constructor]].
  - unfold plain_table, xl_group. cbn [t_name t_desc t_class t_cols t_indices].
    split; [discriminate|]. split; [apply trim_fix; vm_compute; reflexivity|].
    split; [apply trim_fix; vm_compute; reflexivity|]. split; [apply attr_fix; vm_compute; reflexivity|].
    split; [|split; constructor].
    constructor; [|constructor]. plain_col.
  - unfold plain_table, xl_user. cbn [t_name t_desc t_class t_cols t_indices].
    split; [discriminate|]. split; [apply trim_fix; vm_compute; reflexivity|].
    split; [apply trim_fix; vm_compute; reflexivity|]. split; [apply attr_fix; vm_compute; reflexivity|].
    split; [|split].
    + constructor; [plain_col|]. constructor; [plain_col|]. constructor; [plain_col|].
      { injection Hr as <-. unfold plain_reference. cbn [ref_table ref_column ref_rel].
        split; [discriminate|]. split; [discriminate|]. split; [no_char|]. split; [no_char|].
        split; [now apply starts_app|]. split; [exact (ends_snoc "i" "d" eq_refl)|].
        split; [discriminate|]. split; [discriminate|reflexivity]. }
      constructor; [plain_col|]. constructor; [plain_col|]. constructor.
    + constructor; [|constructor]. unfold plain_index. cbn [ix_name ix_cols].
      split; [apply trim_fix; vm_compute; reflexivity|]. split; [discriminate|].
      constructor; [split; [discriminate|apply trim_fix; vm_compute; reflexivity]|].
      constructor; [split; [discriminate|apply trim_fix; vm_compute; reflexivity]|]. constructor.
    + cbn [map ix_name]. constructor; [intros []|constructor].
Qed.
