(** Concrete counterexamples, and small facts stated in Props/P02_Octopus.v *)
From Coq Require Import String Ascii List NArith Bool Lia Sorting.Permutation.
From Verif.Model Require Import GoString Util Octopus Json.
From Verif.Spec Require Import Order Text OctopusSpec.
From Verif.Proofs Require Import StringLemmas TypeProofs OctopusProofs.
Import ListNotations.
Local Open Scope string_scope.

Lemma parse_type_spacing : forall name size sep scale rest,
  name <> "" -> all_chars (fun x => is_letter x = true) name ->
  (size < 65536)%N -> (scale < 65536)%N ->
  sep <> "" -> all_chars (fun x => is_sep x = true) sep ->
  parse_type (name ++ "(" ++ itoa size ++ sep ++ itoa scale ++ ")" ++ rest) = (name, size, scale).
Proof.
  intros name size sep scale rest H1 H2 H3 H4 H5 H6. unfold parse_type.
  assert (S : string_forallb is_sep sep = true).
  { clear H5. unfold all_chars in H6. induction sep; simpl in *; auto. apply andb_true_iff. split; auto. }
  rewrite match_type_form; auto.
  - now rewrite !atoi_itoa by auto.
  - now apply all_letters_iff.
  - apply itoa_nonempty.
  - apply itoa_digits.
  - apply itoa_digits.
Qed.

Lemma int64_text_witness : exists c,
  valid_column c /\ (c_size c < 65536)%N /\ (c_scale c < 65536)%N /\
  parse_type (col_format c) <> (c_type c, c_size c, c_scale c).
Proof.
  exists (mkCol "id" "int64" "" 20 0 true true false true "" "" [] None).
  split; [|split; [reflexivity|split; [reflexivity|vm_compute; discriminate]]].
  unfold valid_column, octopus_types, integer_types, sized. simpl.
  repeat split; try discriminate; tauto.
Qed.

Lemma load_schema_witness : forall sortf, sorts_tables sortf ->
  exists j s, load_schema sortf true j = Some s /\ ~ valid_schema s.
Proof.
  intros sortf Hs.
  exists (JObj [("tables", JArr [JObj [("name", JStr "t");
     ("columns", JArr [JObj [("name", JStr "flag"); ("type", JStr "bool")]])]])]).
  set (t := mkTable "t" [mkCol "flag" "bool" "" 0 0 false false false false "" "" [] None] "" "" "" []).
  exists (mkSchema "" "" "" [t]). split.
  - unfold load_schema.
    change (from_json _) with (Some (mkSchema "" "" "" [t])). cbn [option_map].
    unfold load_schema_decoded, normalize. cbn [s_tables].
    assert (E : sortf [t] = [t]).
    { destruct (Hs [t]) as [P _]. symmetry in P. now apply Permutation_length_1_inv in P. }
    rewrite E. reflexivity.
  - intros V. specialize (V (mkCol "flag" "bool" "" 0 0 false false false false "" "" [] None)).
    assert (In "bool" octopus_types) by (apply V; simpl; auto).
    assert (str_in "bool" octopus_types = false) by reflexivity.
    apply str_in_false in H0. contradiction.
Qed.

Lemma fn_value_facts : forall c,
  (forall f, get_default_value (set_default_value_fn c f) = (f, true)) /\
  (forall f, get_on_update (set_on_update_fn c f) = (f, true)) /\
  (forall v, ~ (exists r, v = fn_prefix ++ r) -> get_default_value (set_default_value c (Some v)) = (v, false)) /\
  (forall v, ~ (exists r, v = fn_prefix ++ r) -> get_on_update (set_on_update c (Some v)) = (v, false)) /\
  get_default_value (set_default_value c None) = ("", false) /\
  get_on_update (set_on_update c None) = ("", false).
Proof.
  intros. unfold get_default_value, get_on_update, set_default_value, set_default_value_fn, set_on_update, set_on_update_fn.
  repeat split; intros; cbn [c_default c_onupdate with_default with_onupdate];
    try apply get_value_fn; try (now apply get_value_lit); reflexivity.
Qed.

Lemma fn_literal_witness : exists c v,
  get_default_value (set_default_value c (Some v)) <> (v, false).
Proof. exists zero_col, "fn::x". vm_compute. discriminate. Qed.
