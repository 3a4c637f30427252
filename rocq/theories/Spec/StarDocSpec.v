(** StarUML project files as JSON documents: what the members used by the import mean
    (/repo/format/staruml/staruml.go:3-26) *)
From Coq Require Import String Ascii List NArith ZArith Bool.
From Verif.Model Require Import GoString Util Octopus Json Staruml.
From Verif.Spec Require Import Text OctopusSpec FormatSpec StarumlSpec.
Import ListNotations.
Local Open Scope string_scope.

(** no member twice; there may be members with other names *)
Definition has_known (names : list string) (l : list (string * json)) : Prop :=
  NoDup (map fst l) /\
  forall k, In k (map fst l) -> In k names \/ forall n, In n names -> to_lower n <> to_lower k.

(** a reference to an element *)
Definition star_ref (j : json) (id : string) : Prop :=
  exists l, j = JObj l /\ has_known ["$ref"] l /\ str_member l "$ref" id.
Definition star_ref_member (l : list (string * json)) (k : string) (x : option string) : Prop :=
  (exists j id, In (k, j) l /\ star_ref j id /\ x = Some id) \/ absent l k /\ x = None.
(** the length of a column: a text or a number *)
Definition star_length (l : list (string * json)) (x : json) : Prop :=
  In ("length", x) l /\ ((exists s, x = JStr s) \/ exists n, (n < 65536)%N /\ x = JNum (itoa n)) \/
  absent l "length" /\ x = JNull.

Inductive star_element : json -> Staruml.element -> Prop :=
| star_object : forall l e,
    has_known ["_type"; "_id"; "_parent"; "name"; "length"; "type"; "primaryKey"; "unique"; "nullable"; "documentation";
               "referenceTo"; "head"; "end1"; "end2"; "reference"; "ownedElements"; "columns"] l ->
    str_member l "_type" (e_typ e) -> str_member l "_id" (e_id e) -> star_ref_member l "_parent" (e_parent e) ->
    str_member l "name" (e_name e) -> star_length l (e_length e) -> str_member l "type" (e_type e) ->
    bool_member l "primaryKey" (e_pk e) -> bool_member l "unique" (e_uq e) -> bool_member l "nullable" (e_nullable e) ->
    str_member l "documentation" (e_doc e) -> star_ref_member l "referenceTo" (e_ref_to e) ->
    (forall k, In k ["head"; "end1"; "end2"; "reference"] -> exists x, star_ref_member l k x) ->
    list_member star_entry l "ownedElements" (e_owned e) -> list_member star_entry l "columns" (e_cols e) ->
    star_element (JObj l) e
with star_entry : json -> option Staruml.element -> Prop :=
| star_some : forall j e, star_element j e -> star_entry j (Some e).

(** a column with a name and a type that octopus knows, but not one with values *)
Definition star_usable (e : Staruml.element) : Prop :=
  e_name e <> "" /\
  exists k t, named_type k /\ e_type e = col_format k /\ canonical (c_type k) t /\ In t octopus_types /\ t <> "enum" /\ t <> "set".
