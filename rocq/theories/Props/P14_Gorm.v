(** Properties of the GORM generator *)
From Coq Require Import String Ascii List NArith Bool.
From Verif.Model Require Import GoString Octopus Common Gorm.
From Verif.Spec Require Import Text DiffSpec Reading OctopusSpec GraphqlSpec ProtobufSpec GormSpec.
From Verif.Proofs Require Import GormProofs GormText.
Import ListNotations.
Local Open Scope string_scope.

(** C44. [m] is any map of models. The names of the embedded structs are models whose columns the table
    has, no two of them share a column and none is left out without need; the fields are exactly the
    columns that no embedded model has, in order. *)
Theorem C44_embedding : forall camel snake om on m s remove pm t,
  iteration_order om -> iteration_order on -> NoDup (map fst m) ->
  let g := new_go_struct camel snake om on m s remove pm t in
  embedding m t (gs_models g) /\
  kept (fun c => ~ covered m (gs_models g) (c_name c)) (t_cols t) (map go_col (gs_fields g)).
Proof. exact embeds_once. Qed.
Print Assumptions C44_embedding.

(** the models registered by any sequence of generations have distinct names *)
Theorem C44_registry : forall embeds, models_ok (fold_left embed_models embeds default_models).
Proof. exact registry_ok. Qed.
Print Assumptions C44_registry.

Example C44_case :
  let m := fold_left embed_models ["Owned:owner,team"; "Base:id,owner"] default_models in
  let g := new_go_struct (fun x => x) (fun x => x) (fun l => l) (fun l => l) m gorm_audit [] (mkPM "" [] false)
             (nth 0 (s_tables gorm_audit) (mkTable "" [] "" "" "" [])) in
  map fst m = ["gorm.Model"; "Owned"; "Base"] /\ gs_models g = ["gorm.Model"] /\ map (fun f => c_name (go_col f)) (gs_fields g) = ["owner"].
Proof. vm_compute. repeat split; reflexivity. Qed.

(** C45. False as stated: with a second model the embedded structs come in any order, *)
Theorem C45_order_refuted : exists om on om' on' o s,
  (forall k, iteration_order (om k)) /\ (forall k, iteration_order (on k)) /\
  (forall k, iteration_order (om' k)) /\ (forall k, iteration_order (on' k)) /\
  forall camel snake, fst (gorm_generate camel snake om on default_models o s) <> fst (gorm_generate camel snake om' on' default_models o s).
Proof. exact order_matters. Qed.
Print Assumptions C45_order_refuted.

(** and if the models share a column either of them may be embedded. *)
Theorem C45_overlap_refuted : exists om om' on o s t,
  (forall k, iteration_order (om k)) /\ (forall k, iteration_order (on k)) /\ (forall k, iteration_order (om' k)) /\
  s_tables s = [t] /\
  forall camel snake,
    map gs_models (go_structs camel snake om on (embed_models default_models (go_embed o)) o s) = [["gorm.Model"]] /\
    map gs_models (go_structs camel snake om' on (embed_models default_models (go_embed o)) o s) = [["Base"]].
Proof. exact overlap_matters. Qed.
Print Assumptions C45_overlap_refuted.

(** The output is the same if no table has the columns of two models. *)
Theorem C45_one_model_partial : forall camel snake om on om' on' m o s,
  (forall k, iteration_order (om k)) -> (forall k, iteration_order (on k)) ->
  (forall k, iteration_order (om' k)) -> (forall k, iteration_order (on' k)) -> NoDup (map fst m) ->
  (forall t, In t (s_tables s) -> selected (go_filter o) t -> one_fits (embed_models m (go_embed o)) t) ->
  gorm_generate camel snake om on m o s = gorm_generate camel snake om' on' m o s.
Proof. exact order_irrelevant. Qed.
Print Assumptions C45_one_model_partial.

(** In particular without the option, or if the option redefines the default model. *)
Theorem C45_default_partial : forall camel snake om on om' on' o s,
  (forall k, iteration_order (om k)) -> (forall k, iteration_order (on k)) ->
  (forall k, iteration_order (om' k)) -> (forall k, iteration_order (on' k)) ->
  (go_embed o = "" \/ exists cols, go_embed o = "gorm.Model:" ++ cols) ->
  gorm_generate camel snake om on default_models o s = gorm_generate camel snake om' on' default_models o s.
Proof. exact default_same. Qed.
Print Assumptions C45_default_partial.

Example C45_case : go_embed (user_opt "gorm.Model:id,name") = "gorm.Model:" ++ "id,name" /\
  map gs_models (go_structs doc_camel doc_snake (fun _ l => l) (fun _ l => l)
    (embed_models default_models "gorm.Model:id,name") (user_opt "gorm.Model:id,name") gorm_user) = [["gorm.Model"]; ["gorm.Model"]].
Proof. vm_compute. split; reflexivity. Qed.

(** C49. False: with the documented option every struct embeds gorm.Model, and its columns are fields as
    well. *)
Theorem C49_refuted : forall camel snake om on o s, go_embed o = "gorm.Model:" ->
  (forall k, iteration_order (om k)) -> (forall k, iteration_order (on k)) ->
  forall g, In g (go_structs camel snake om on (embed_models default_models (go_embed o)) o s) ->
  gs_models g = ["gorm.Model"] /\ map go_col (gs_fields g) = t_cols (gs_table g).
Proof. exact off_everywhere. Qed.
Print Assumptions C49_refuted.

Example C49_case : map gs_models (go_structs doc_camel doc_snake (fun _ l => l) (fun _ l => l)
    (embed_models default_models "gorm.Model:") (user_opt "gorm.Model:") gorm_user) = [["gorm.Model"]; ["gorm.Model"]].
Proof. vm_compute. reflexivity. Qed.

(** C64. The generated file read back: one struct per selected table with the embedded models, one field
    per remaining column with its Go type and exactly the tags the column asks for, and one association
    per reference that leads to a column; the method returns the table name. Names have to be words. *)
Theorem C64_text : forall camel snake om on,
  (forall k, iteration_order (om k)) -> (forall k, iteration_order (on k)) -> forall m o s, models_ok m ->
  go_names_ok camel (get_prefix (go_prefix o)) (go_remove o) (go_suffix o) (s_tables s) (filter (passes (go_filter o)) (s_tables s)) ->
  one_line (go_package o) ->
  exists f, read_go (fst (gorm_generate camel snake om on m o s)) = Some f /\
    gf_package f = (if String.eqb (go_package o) "" then "main" else go_package o) /\
    Forall2 (decl_described camel snake (get_prefix (go_prefix o)) (go_remove o) (go_pointer o) (go_suffix o)
               (embed_models m (go_embed o)) (s_tables s))
      (filter (passes (go_filter o)) (s_tables s)) (gf_decls f).
Proof. exact file_described. Qed.
Print Assumptions C64_text.

Example C64_case :
  go_names_ok doc_camel (get_prefix (go_prefix (user_opt "IdName:id,name"))) [] "_uq" (s_tables gorm_user)
    (filter (passes None) (s_tables gorm_user)) /\
  fst (gorm_generate doc_camel doc_snake (fun _ l => l) (fun _ l => l) default_models (user_opt "IdName:id,name") gorm_user) =
"package model

import (
	""gopkg.in/guregu/null.v4""
	""time""
)

type UserGroup struct {
	IdName
}

func (c *UserGroup) TableName() string { return ""group"" }

type User struct {
	IdName
	EMail string `gorm:""column:eMail;type:varchar(80);unique_index:user_uq;not null""`
	_2nd bool `gorm:""column:2nd;not null""`
	MadeAt time.Time `gorm:""index:by_day;not null""`
	GroupID null.Int `gorm:""index:by_name,priority:1""`
	UserGroup UserGroup `gorm:""foreignKey:GroupID;references:ID""`
}

func (c *User) TableName() string { return ""user"" }

".
Proof. split; [exact (gorm_user_ok "IdName:id,name")|]. vm_compute. reflexivity. Qed.

(** C65. False as stated: a nullable column of a type without a counterpart in package null. *)
Theorem C65_unused_refuted : exists camel snake om on o s f,
  (forall k, iteration_order (om k)) /\ (forall k, iteration_order (on k)) /\ one_line (go_package o) /\
  go_names_ok camel (get_prefix (go_prefix o)) (go_remove o) (go_suffix o) (s_tables s) (filter (passes (go_filter o)) (s_tables s)) /\
  read_go (fst (gorm_generate camel snake om on default_models o s)) = Some f /\ ~ imports_used f.
Proof. exact unused_import. Qed.
Print Assumptions C65_unused_refuted.

(** Every package used is imported, if no model of the embed option comes from one of these packages. *)
Theorem C65_enough_partial : forall camel snake om on,
  (forall k, iteration_order (om k)) -> (forall k, iteration_order (on k)) -> forall m o s, models_ok m ->
  go_names_ok camel (get_prefix (go_prefix o)) (go_remove o) (go_suffix o) (s_tables s) (filter (passes (go_filter o)) (s_tables s)) ->
  one_line (go_package o) -> models_known (embed_models m (go_embed o)) ->
  forall f, read_go (fst (gorm_generate camel snake om on m o s)) = Some f -> imports_enough f.
Proof. exact file_enough. Qed.
Print Assumptions C65_enough_partial.

(** Nothing else is imported, if every nullable column has a type of package null. *)
Theorem C65_used_partial : forall camel snake om on,
  (forall k, iteration_order (om k)) -> (forall k, iteration_order (on k)) -> forall m o s, models_ok m ->
  go_names_ok camel (get_prefix (go_prefix o)) (go_remove o) (go_suffix o) (s_tables s) (filter (passes (go_filter o)) (s_tables s)) ->
  one_line (go_package o) ->
  (forall t c, In t (filter (passes (go_filter o)) (s_tables s)) -> In c (t_cols t) -> c_notnull c = true \/ In (c_type c) null_types) ->
  forall f, read_go (fst (gorm_generate camel snake om on m o s)) = Some f -> imports_used f.
Proof. exact file_used. Qed.
Print Assumptions C65_used_partial.

Example C65_case : gf_imports (the_file doc_camel doc_snake (fun _ l => l) (fun _ l => l) default_models (user_opt "") gorm_user) =
    ["gopkg.in/guregu/null.v4"; "time"] /\
  gf_imports (the_file doc_camel doc_snake (fun _ l => l) (fun _ l => l) default_models (user_opt "") gorm_price) =
    ["github.com/shopspring/decimal"; "gopkg.in/guregu/null.v4"].
Proof. vm_compute. split; reflexivity. Qed.

(** C66. False: a model given to one generation is still there in the next one. *)
Theorem C66_refuted : exists o1 o2 s, o2 = plain_opt "" /\
  forall camel snake om on, (forall k, iteration_order (om k)) -> (forall k, iteration_order (on k)) ->
    let m1 := snd (gorm_generate camel snake om on default_models o1 s) in
    map gs_models (go_structs camel snake om on (embed_models m1 "") o2 s) <>
    map gs_models (go_structs camel snake om on (embed_models default_models "") o2 s).
Proof. exact embed_leaks. Qed.
Print Assumptions C66_refuted.

(** A generation without a valid embed option leaves nothing behind. *)
Theorem C66_no_embed_partial : forall camel snake om on m o s, parse_embed (go_embed o) = None ->
  snd (gorm_generate camel snake om on m o s) = m.
Proof. exact no_embed_keeps. Qed.
Print Assumptions C66_no_embed_partial.

Example C66_case : parse_embed "Base" = None /\ parse_embed "" = None /\ parse_embed "Base:a,b" = Some ("Base", ["a"; "b"]) /\
  parse_embed "gorm.Model:" = Some ("gorm.Model", []).
Proof. vm_compute. repeat split; reflexivity. Qed.
