(** Properties of /repo/format/common *)
From Coq Require Import String Ascii List NArith Bool.
From Verif.Model Require Import GoString Util Octopus Common.
From Verif.Spec Require Import Order Text CommonSpec.
From Verif.Proofs Require Import CommonProofs.
Import ListNotations.
Local Open Scope string_scope.

(** C13. Full statement adds: [new_prefix_mapper opt <> Panic] for every opt. False
    (C13_prefix_panic_refuted); C13_prefix_panic_partial is the exact condition. *)
Theorem C13_prefix_panic_partial : forall opt,
  new_prefix_mapper opt = Panic <->
  char_in ":" opt /\ exists t, In t (split_char "," opt) /\ ~ char_in ":" t.
Proof. exact prefix_panic. Qed.
Print Assumptions C13_prefix_panic_partial.

Theorem C13_prefix_plain : forall opt, ~ char_in ":" opt ->
  exists p, new_prefix_mapper opt = Ok p /\ forall g, get_prefix p g = opt.
Proof. exact prefix_plain. Qed.
Print Assumptions C13_prefix_plain.

Theorem C13_prefix_groups : forall l, l <> [] ->
  (forall g v, In (g, v) l -> ~ char_in "," g /\ ~ char_in "," v /\ ~ char_in ":" g) ->
  exists p, new_prefix_mapper (pairs_text l) = Ok p /\
    (forall l1 g v l2, l = (l1 ++ (g, v) :: l2)%list -> ~ In g (map fst l2) -> get_prefix p g = v) /\
    (forall g, ~ In g (map fst l) -> get_prefix p g = "").
Proof. exact prefix_pairs. Qed.
Print Assumptions C13_prefix_groups.

Theorem C13_prefix_panic_refuted : exists opt, new_prefix_mapper opt = Panic.
Proof. exact (ex_intro _ "a:x,b" eq_refl). Qed.
Print Assumptions C13_prefix_panic_refuted.

Example C13_case :
  match new_prefix_mapper "a:x,b:y:z,a:w" with
  | Ok p => map (get_prefix p) ["a"; "b"; "c"]
  | Panic => []
  end = ["w"; "y:z"; ""].
Proof. vm_compute. reflexivity. Qed.

(** C14. Likewise. *)
Theorem C14_annotation_panic_partial : forall opt,
  new_anno_mapper opt = Panic <->
  char_in ":" opt /\ exists t, In t (split_char "," opt) /\ ~ char_in ":" t.
Proof. exact anno_panic. Qed.
Print Assumptions C14_annotation_panic_partial.

Theorem C14_annotation_plain : forall opt, ~ char_in ":" opt ->
  exists p, new_anno_mapper opt = Ok p /\ forall g, get_annotations p g = [opt].
Proof. exact anno_plain. Qed.
Print Assumptions C14_annotation_plain.

Theorem C14_annotation_groups : forall l, l <> [] ->
  (forall g v, In (g, v) l -> ~ char_in "," g /\ ~ char_in "," v /\ ~ char_in ":" g) ->
  exists p, new_anno_mapper (pairs_text l) = Ok p /\
    (forall l1 g annos l2, l = (l1 ++ (g, join ";" annos) :: l2)%list -> ~ In g (map fst l2) ->
       annos <> [] -> (forall a, In a annos -> ~ char_in ";" a) -> get_annotations p g = annos) /\
    (forall g, ~ In g (map fst l) -> get_annotations p g = []).
Proof. exact anno_pairs. Qed.
Print Assumptions C14_annotation_groups.

Theorem C14_annotation_panic_refuted : exists opt, new_anno_mapper opt = Panic.
Proof. exact (ex_intro _ "g:@A,@B" eq_refl). Qed.
Print Assumptions C14_annotation_panic_refuted.

Example C14_case :
  match new_anno_mapper "g:@A;@B(x),h:@C" with
  | Ok p => map (get_annotations p) ["g"; "h"; "i"]
  | Panic => []
  end = [["@A"; "@B(x)"]; ["@C"]; []].
Proof. vm_compute. reflexivity. Qed.

(** C15 *)
Theorem C15_file_format : forall f,
  (forall pre e, clean_ext e -> f = pre ++ "." ++ e -> has_format (to_lower e) (get_file_format f)) /\
  ((forall pre e, clean_ext e -> f <> pre ++ "." ++ e) -> get_file_format f = "").
Proof. exact file_format_spec. Qed.
Print Assumptions C15_file_format.

Theorem C15_load_schema_accepts : forall f,
  load_schema_accepts f = true <->
  exists pre e, f = pre ++ "." ++ e /\ clean_ext e /\ (to_lower e = "json" \/ to_lower e = "ojson").
Proof. exact load_schema_accepts_iff. Qed.
Print Assumptions C15_load_schema_accepts.

Example C15_case :
  map get_file_format ["a/b.x/db.JSON"; "db.ojson"; "x.tar.XLSX"; "a.json/db"; "json"]
  = ["octopus2"; "octopus1"; "xlsx"; ""; ""] /\ clean_ext "JSON".
Proof. split; [vm_compute; reflexivity|split; simpl; intuition congruence]. Qed.
