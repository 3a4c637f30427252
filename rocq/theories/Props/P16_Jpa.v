(** The JPA generator for Kotlin (C47, C71 to C76) *)
From Coq Require Import String Ascii List NArith Bool Arith.
From Verif.Model Require Import GoString Util Octopus Common Jpa.
From Verif.Spec Require Import Text Reading OctopusSpec GraphqlSpec.
From Verif.Proofs Require Import JpaMain JpaCases.
From Verif.Spec Require Import KotlinSpec.
Import ListNotations.
Local Open Scope string_scope.

(** C47. False: with repositories, a table without a primary key is an index out of range... *)
Theorem C47_nopk_refuted : exists camel lower_camel snake path_join o s output,
  (exists wanted,
    kt_names_ok camel lower_camel (get_prefix (ko_prefix o)) (ko_remove o) (ko_identity o) (ko_relation o) (ko_suffix o) (filter (passes (ko_filter o)) (s_tables s)) /\
    package_ok (ko_package o) /\ (forall t, In t (filter (passes (ko_filter o)) (s_tables s)) -> annotations (get_annotations (ko_anno o) (t_group t)) (wanted (t_group t))) /\
    package_ok (ko_repos o)) /\
  snd (kt_generate camel lower_camel snake path_join o s output) = KtPanic.
Proof. exact nopk_refuted. Qed.
Print Assumptions C47_nopk_refuted.

(** ... and a reference to a table that the filter leaves out ends in log.Fatalf. *)
Theorem C47_fatal_refuted : exists camel lower_camel snake path_join o s output,
  (forall t c r, In t (s_tables s) -> In c (t_cols t) -> c_ref c = Some r ->
     exists u d, In u (s_tables s) /\ t_name u = ref_table r /\ In d (t_cols u) /\ c_name d = ref_column r) /\
  (forall t, In t (s_tables s) -> keys t <> []) /\
  snd (kt_generate camel lower_camel snake path_join o s output) = KtFatal.
Proof. exact fatal_refuted. Qed.
Print Assumptions C47_fatal_refuted.

(** It ends well exactly if the references lead to classes and, with repositories, all tables have keys. *)
Theorem C47_done_partial : forall camel lower_camel snake path_join o s output,
  snd (kt_generate camel lower_camel snake path_join o s output) = KtDone <->
  (forall t c, In t (filter (passes (ko_filter o)) (s_tables s)) -> In c (t_cols t) ->
     resolved camel (get_prefix (ko_prefix o)) (ko_remove o) (ko_relation o) (filter (passes (ko_filter o)) (s_tables s)) c) /\
  (ko_repos o = "" \/ forall t, In t (filter (passes (ko_filter o)) (s_tables s)) -> keys t <> []).
Proof. exact done_iff. Qed.
Print Assumptions C47_done_partial.

(** The index is out of range exactly if there is a table without a key and no reference fails before. *)
Theorem C47_panic_partial : forall camel lower_camel snake path_join o s output,
  snd (kt_generate camel lower_camel snake path_join o s output) = KtPanic <->
  (forall t c, In t (filter (passes (ko_filter o)) (s_tables s)) -> In c (t_cols t) ->
     resolved camel (get_prefix (ko_prefix o)) (ko_remove o) (ko_relation o) (filter (passes (ko_filter o)) (s_tables s)) c) /\
  ko_repos o <> "" /\ exists t, In t (filter (passes (ko_filter o)) (s_tables s)) /\ keys t = [].
Proof. exact panic_iff. Qed.
Print Assumptions C47_panic_partial.

(** A table with several key columns has an id class with these columns. *)
Theorem C47_idclass_partial : forall camel lower_camel snake path_join o s output wanted,
  kt_names_ok camel lower_camel (get_prefix (ko_prefix o)) (ko_remove o) (ko_identity o) (ko_relation o) (ko_suffix o) (filter (passes (ko_filter o)) (s_tables s)) ->
  package_ok (ko_package o) ->
  (forall t, In t (filter (passes (ko_filter o)) (s_tables s)) -> annotations (get_annotations (ko_anno o) (t_group t)) (wanted (t_group t))) ->
  (ko_repos o = "" \/ package_ok (ko_repos o) /\ forall t, In t (filter (passes (ko_filter o)) (s_tables s)) -> keys t <> []) ->
  exists entities repos, kt_generate camel lower_camel snake path_join o s output = ((entities ++ repos)%list, KtDone) /\
  Forall2 (fun t file => length (keys t) > 1 -> exists f annos params super ps, read_kotlin (snd file) = Some f /\
    ki_decls f = [DClass annos (class_named camel (get_prefix (ko_prefix o)) (ko_remove o) t) params super;
                  DClass [] (class_named camel (get_prefix (ko_prefix o)) (ko_remove o) t ++ "PK") ps (kt "Serializable")] /\
    In (mkAnno "IdClass" [("", [Leaf (TWord (class_named camel (get_prefix (ko_prefix o)) (ko_remove o) t ++ "PK")); Leaf (TMark ":"); Leaf (TMark ":"); Leaf (TWord "class")])]) annos /\
    map kp_name ps = map (fun c => lower_camel (c_name c)) (keys t)) (filter (passes (ko_filter o)) (s_tables s)) entities.
Proof. exact id_classes. Qed.
Print Assumptions C47_idclass_partial.

Example C47_case : snd (kt_generate kt_camel kt_lower_camel kt_snake (join "/") kt_plain kt_user "out") = KtDone /\
  map (fun t => length (keys t)) (s_tables kt_user) = [1; 2].
Proof. vm_compute. split; reflexivity. Qed.

(** C71. The files describe the selected tables. *)
Theorem C71_partial : forall camel lower_camel snake path_join o s output wanted,
  kt_names_ok camel lower_camel (get_prefix (ko_prefix o)) (ko_remove o) (ko_identity o) (ko_relation o) (ko_suffix o) (filter (passes (ko_filter o)) (s_tables s)) ->
  package_ok (ko_package o) ->
  (forall t, In t (filter (passes (ko_filter o)) (s_tables s)) -> annotations (get_annotations (ko_anno o) (t_group t)) (wanted (t_group t))) ->
  (ko_repos o = "" \/ package_ok (ko_repos o) /\ forall t, In t (filter (passes (ko_filter o)) (s_tables s)) -> keys t <> []) ->
  exists entities repos, kt_generate camel lower_camel snake path_join o s output = ((entities ++ repos)%list, KtDone) /\
    Forall2 (fun t file => fst file = path_join [path_join (output :: split_on "." (ko_package o)); class_named camel (get_prefix (ko_prefix o)) (ko_remove o) t ++ ".kt"] /\
       exists f, read_kotlin (snd file) = Some f /\ ki_package f = split_on "." (ko_package o) /\
         entity_described camel lower_camel snake (get_prefix (ko_prefix o)) wanted (ko_remove o) (ko_identity o) (ko_relation o) (ko_suffix o) (filter (passes (ko_filter o)) (s_tables s)) t (ki_decls f))
      (filter (passes (ko_filter o)) (s_tables s)) entities /\
    (ko_repos o = "" /\ repos = [] \/
     ko_repos o <> "" /\
     Forall2 (fun t file => fst file = path_join [path_join (output :: split_on "." (ko_repos o)); class_named camel (get_prefix (ko_prefix o)) (ko_remove o) t ++ "Repository.kt"] /\
       exists f, read_kotlin (snd file) = Some f /\ ki_package f = split_on "." (ko_repos o) /\
         repository_described camel (get_prefix (ko_prefix o)) (ko_remove o) (split_on "." (ko_package o)) t f) (filter (passes (ko_filter o)) (s_tables s)) repos).
Proof. exact files_described. Qed.
Print Assumptions C71_partial.

(** As stated it is false: a table without a key gets no repository (the generator crashes, see C47). The other cases that
    the hypotheses leave out are those of C72, C73 and C76. *)
Theorem C71_refuted : exists camel lower_camel snake path_join o s output t,
  (exists wanted,
    kt_names_ok camel lower_camel (get_prefix (ko_prefix o)) (ko_remove o) (ko_identity o) (ko_relation o) (ko_suffix o) (filter (passes (ko_filter o)) (s_tables s)) /\
    package_ok (ko_package o) /\ (forall t, In t (filter (passes (ko_filter o)) (s_tables s)) -> annotations (get_annotations (ko_anno o) (t_group t)) (wanted (t_group t))) /\
    package_ok (ko_repos o)) /\
  In t (filter (passes (ko_filter o)) (s_tables s)) /\
  ~ In (path_join [path_join (output :: split_on "." (ko_repos o)); class_named camel (get_prefix (ko_prefix o)) (ko_remove o) t ++ "Repository.kt"])
       (map fst (fst (kt_generate camel lower_camel snake path_join o s output))).
Proof. exact norepo_refuted. Qed.
Print Assumptions C71_refuted.

Example C71_case : (exists wanted,
    kt_names_ok kt_camel kt_lower_camel (get_prefix (ko_prefix kt_plain)) (ko_remove kt_plain) (ko_identity kt_plain) (ko_relation kt_plain)
      (ko_suffix kt_plain) (filter (passes (ko_filter kt_plain)) (s_tables kt_user)) /\
    package_ok (ko_package kt_plain) /\
    (forall t, In t (filter (passes (ko_filter kt_plain)) (s_tables kt_user)) -> annotations (get_annotations (ko_anno kt_plain) (t_group t)) (wanted (t_group t))) /\
    (ko_repos kt_plain = "" \/ package_ok (ko_repos kt_plain) /\ forall t, In t (filter (passes (ko_filter kt_plain)) (s_tables kt_user)) -> keys t <> [])) /\
  kt_generate kt_camel kt_lower_camel kt_snake (join "/") kt_plain kt_user "out" = ([
("out/com/lechuck/CUser.kt", "package com.lechuck

import org.hibernate.annotations.CreationTimestamp
import org.hibernate.annotations.UpdateTimestamp

import java.math.BigDecimal
import java.sql.Timestamp
import javax.persistence.*

@Common
@Entity
@Table(name=""user"", uniqueConstraints = [
    UniqueConstraint(name = ""user_uq"", columnNames = [""name""])
])
data class CUser(
        @Id
        @GeneratedValue(strategy = GenerationType.AUTO)
        @Column(nullable = false)
        override var id: Long = 0L,

        @Column(nullable = false, length = 100)
        var name: String = """",

        @Column(nullable = false, precision = 20, scale = 5)
        var score: BigDecimal = BigDecimal.ZERO,

        @CreationTimestamp
        @Column(nullable = false, updatable = false)
        var createdAt: Timestamp = Timestamp(System.currentTimeMillis()),

        @UpdateTimestamp
        var updatedAt: Timestamp?

): IdEntity<Long>
"); ("out/com/lechuck/Member.kt", "package com.lechuck


import java.io.Serializable
import javax.persistence.*


@Entity
@Table(name = ""member"")
@IdClass(MemberPK::class)
data class Member(
        @Id
        @VRelation(cls = ""CUser"", field = ""id"")
        @Column(nullable = false)
        var userId: Long = 0L,

        @Id
        @Column(nullable = false)
        var groupId: Int = 0

)
data class MemberPK(
        var userId: Long = 0L,
        var groupId: Int = 0
): Serializable
"); ("out/com/repos/CUserRepository.kt", "package com.repos

import com.lechuck.*
import org.springframework.data.jpa.repository.JpaRepository
import org.springframework.stereotype.Repository

@Repository
interface CUserRepository : JpaRepository<CUser, Long>
"); ("out/com/repos/MemberRepository.kt", "package com.repos

import com.lechuck.*
import org.springframework.data.jpa.repository.JpaRepository
import org.springframework.stereotype.Repository

@Repository
interface MemberRepository : JpaRepository<Member, MemberPK>
")], KtDone).
Proof. split; [exists kt_wanted; exact (conj kt_user_ok kt_user_rest)|]. vm_compute. reflexivity. Qed.

(** C72. False: a column of a binary type that is not null has no value after the equals sign... *)
Theorem C72_value_refuted : exists camel lower_camel snake path_join o s output path text,
  (forall t, In t (filter (passes (ko_filter o)) (s_tables s)) -> word (t_name t) /\ identifier (class_named camel (get_prefix (ko_prefix o)) (ko_remove o) t) = true /\
     forall c, In c (t_cols t) -> word (c_name c) /\ In (c_type c) octopus_types) /\
  package_ok (ko_package o) /\
  (forall t c, In t (filter (passes (ko_filter o)) (s_tables s)) -> In c (t_cols t) -> identifier (lower_camel (c_name c)) = true) /\
  kt_generate camel lower_camel snake path_join o s output = ([(path, text)], KtDone) /\ read_kotlin text = None.
Proof. exact value_refuted. Qed.
Print Assumptions C72_value_refuted.

(** ... nor does a column that may be null, in an id class... *)
Theorem C72_key_refuted : exists camel lower_camel snake path_join o s output path text,
  (forall t, In t (filter (passes (ko_filter o)) (s_tables s)) -> word (t_name t) /\ identifier (class_named camel (get_prefix (ko_prefix o)) (ko_remove o) t) = true /\
     forall c, In c (t_cols t) -> word (c_name c) /\ In (c_type c) octopus_types) /\
  package_ok (ko_package o) /\
  (forall t c, In t (filter (passes (ko_filter o)) (s_tables s)) -> In c (t_cols t) -> identifier (lower_camel (c_name c)) = true /\ has_default c) /\
  kt_generate camel lower_camel snake path_join o s output = ([(path, text)], KtDone) /\ read_kotlin text = None.
Proof. exact nullable_key_refuted. Qed.
Print Assumptions C72_key_refuted.

(** ... and a property may have a keyword as its name. *)
Theorem C72_keyword_refuted : exists camel lower_camel snake path_join o s output path text,
  (forall t, In t (filter (passes (ko_filter o)) (s_tables s)) -> word (t_name t) /\ identifier (class_named camel (get_prefix (ko_prefix o)) (ko_remove o) t) = true /\
     forall c, In c (t_cols t) -> word (c_name c) /\ In (c_type c) octopus_types) /\
  package_ok (ko_package o) /\
  (forall t c, In t (filter (passes (ko_filter o)) (s_tables s)) -> In c (t_cols t) -> has_default c /\ c_notnull c = true) /\
  kt_generate camel lower_camel snake path_join o s output = ([(path, text)], KtDone) /\ read_kotlin text = None.
Proof. exact keyword_refuted. Qed.
Print Assumptions C72_keyword_refuted.

(** Otherwise every file can be read. *)
Theorem C72_partial : forall camel lower_camel snake path_join o s output wanted,
  kt_names_ok camel lower_camel (get_prefix (ko_prefix o)) (ko_remove o) (ko_identity o) (ko_relation o) (ko_suffix o) (filter (passes (ko_filter o)) (s_tables s)) ->
  package_ok (ko_package o) ->
  (forall t, In t (filter (passes (ko_filter o)) (s_tables s)) -> annotations (get_annotations (ko_anno o) (t_group t)) (wanted (t_group t))) ->
  (ko_repos o = "" \/ package_ok (ko_repos o) /\ forall t, In t (filter (passes (ko_filter o)) (s_tables s)) -> keys t <> []) ->
  forall file, In file (fst (kt_generate camel lower_camel snake path_join o s output)) -> exists f, read_kotlin (snd file) = Some f.
Proof. exact all_read. Qed.
Print Assumptions C72_partial.

Example C72_case : map (fun file => match read_kotlin (snd file) with Some f => length (ki_decls f) | None => 0 end)
    (fst (kt_generate kt_camel kt_lower_camel kt_snake (join "/") kt_plain kt_user "out")) = [1; 2; 1; 1].
Proof. vm_compute. reflexivity. Qed.

(** C73. False: without a package the output directory is forgotten... *)
Theorem C73_output_refuted : forall camel lower_camel snake path_join o s output output', ko_package o = "" -> ko_repos o = "" ->
  kt_generate camel lower_camel snake path_join o s output = kt_generate camel lower_camel snake path_join o s output'.
Proof. exact output_forgotten. Qed.
Print Assumptions C73_output_refuted.

(** ... and the file has a package line without a name. *)
Theorem C73_package_refuted : exists camel lower_camel snake path_join o s output path text,
  kt_names_ok camel lower_camel (get_prefix (ko_prefix o)) (ko_remove o) (ko_identity o) (ko_relation o) (ko_suffix o) (filter (passes (ko_filter o)) (s_tables s)) /\
  ko_package o = "" /\
  kt_generate camel lower_camel snake path_join o s output = ([(path, text)], KtDone) /\ read_kotlin text = None.
Proof. exact package_refuted. Qed.
Print Assumptions C73_package_refuted.

(** With a package, every file is in the directory of its package. *)
Theorem C73_partial : forall camel lower_camel snake path_join o s output p text, ko_package o <> "" ->
  In (p, text) (fst (kt_generate camel lower_camel snake path_join o s output)) ->
  exists package name, (package = ko_package o \/ package = ko_repos o) /\
    p = path_join [path_join (output :: split_on "." package); name ++ ".kt"].
Proof. exact paths_below. Qed.
Print Assumptions C73_partial.

Example C73_case : map fst (fst (kt_generate kt_camel kt_lower_camel kt_snake (join "/") kt_plain kt_user "out")) =
  ["out/com/lechuck/CUser.kt"; "out/com/lechuck/Member.kt"; "out/com/repos/CUserRepository.kt"; "out/com/repos/MemberRepository.kt"].
Proof. vm_compute. reflexivity. Qed.

(** C74. The entity files import what they use, and nothing else. *)
Theorem C74_entities_partial : forall camel lower_camel snake path_join o s output wanted,
  kt_names_ok camel lower_camel (get_prefix (ko_prefix o)) (ko_remove o) (ko_identity o) (ko_relation o) (ko_suffix o) (filter (passes (ko_filter o)) (s_tables s)) ->
  package_ok (ko_package o) ->
  (forall t, In t (filter (passes (ko_filter o)) (s_tables s)) -> annotations (get_annotations (ko_anno o) (t_group t)) (wanted (t_group t))) ->
  (ko_repos o = "" \/ package_ok (ko_repos o) /\ forall t, In t (filter (passes (ko_filter o)) (s_tables s)) -> keys t <> []) ->
  ~ In (ko_identity o) (map fst kt_homes) -> (forall g n, In n (wanted g) -> ~ In n (map fst kt_homes)) ->
  exists entities repos, kt_generate camel lower_camel snake path_join o s output = ((entities ++ repos)%list, KtDone) /\
    length entities = length (filter (passes (ko_filter o)) (s_tables s)) /\
    forall file, In file entities -> exists f, read_kotlin (snd file) = Some f /\ kt_imports_enough f /\ kt_imports_used f.
Proof. exact all_imports. Qed.
Print Assumptions C74_entities_partial.

(** False for repositories: the type of the key is not imported... *)
Theorem C74_repository_refuted : exists camel lower_camel snake path_join o s output wanted entity path text f,
  kt_names_ok camel lower_camel (get_prefix (ko_prefix o)) (ko_remove o) (ko_identity o) (ko_relation o) (ko_suffix o) (filter (passes (ko_filter o)) (s_tables s)) /\
  package_ok (ko_package o) /\ (forall t, In t (filter (passes (ko_filter o)) (s_tables s)) -> annotations (get_annotations (ko_anno o) (t_group t)) (wanted (t_group t))) /\
  package_ok (ko_repos o) /\
  kt_generate camel lower_camel snake path_join o s output = ([entity; (path, text)], KtDone) /\
  read_kotlin text = Some f /\ ~ kt_imports_enough f.
Proof. exact repo_import_refuted. Qed.
Print Assumptions C74_repository_refuted.

(** ... which does not matter for a key of a built-in type or of several columns. *)
Theorem C74_repositories_partial : forall camel lower_camel snake path_join o s output wanted,
  kt_names_ok camel lower_camel (get_prefix (ko_prefix o)) (ko_remove o) (ko_identity o) (ko_relation o) (ko_suffix o) (filter (passes (ko_filter o)) (s_tables s)) ->
  package_ok (ko_package o) ->
  (forall t, In t (filter (passes (ko_filter o)) (s_tables s)) -> annotations (get_annotations (ko_anno o) (t_group t)) (wanted (t_group t))) ->
  (ko_repos o = "" \/ package_ok (ko_repos o) /\ forall t, In t (filter (passes (ko_filter o)) (s_tables s)) -> keys t <> []) ->
  (forall t, In t (filter (passes (ko_filter o)) (s_tables s)) -> ~ In (class_named camel (get_prefix (ko_prefix o)) (ko_remove o) t) (map fst kt_homes)) ->
  (forall t c, In t (filter (passes (ko_filter o)) (s_tables s)) -> keys t = [c] ->
     ~ In (c_type c) ["decimal"; "datetime"; "date"; "time"; "blob8"; "blob16"; "blob24"; "blob32"]) ->
  exists entities repos, kt_generate camel lower_camel snake path_join o s output = ((entities ++ repos)%list, KtDone) /\
    length entities = length (filter (passes (ko_filter o)) (s_tables s)) /\
    forall file, In file repos -> exists f, read_kotlin (snd file) = Some f /\ kt_imports_enough f.
Proof. exact repo_imports_all. Qed.
Print Assumptions C74_repositories_partial.

Example C74_case : map (fun file => match read_kotlin (snd file) with Some f => map (join ".") (ki_imports f) | None => [] end)
    (fst (kt_generate kt_camel kt_lower_camel kt_snake (join "/") kt_plain kt_user "out")) =
  [["org.hibernate.annotations.CreationTimestamp"; "org.hibernate.annotations.UpdateTimestamp"; "java.math.BigDecimal"; "java.sql.Timestamp"; "javax.persistence.*"];
   ["java.io.Serializable"; "javax.persistence.*"];
   ["com.lechuck.*"; "org.springframework.data.jpa.repository.JpaRepository"; "org.springframework.stereotype.Repository"];
   ["com.lechuck.*"; "org.springframework.data.jpa.repository.JpaRepository"; "org.springframework.stereotype.Repository"]] /\
  ~ In (ko_identity kt_plain) (map fst kt_homes).
Proof. vm_compute. split; [reflexivity|]. intros H. repeat (destruct H as [H|H]; [discriminate|]). destruct H. Qed.

(** C75. False: the constraint has the name of the property, not of the column. *)
Theorem C75_refuted : exists camel lower_camel snake path_join o s output wanted path text f,
  kt_names_ok camel lower_camel (get_prefix (ko_prefix o)) (ko_remove o) (ko_identity o) (ko_relation o) (ko_suffix o) (filter (passes (ko_filter o)) (s_tables s)) /\
  package_ok (ko_package o) /\ (forall t, In t (filter (passes (ko_filter o)) (s_tables s)) -> annotations (get_annotations (ko_anno o) (t_group t)) (wanted (t_group t))) /\
  kt_generate camel lower_camel snake path_join o s output = ([(path, text)], KtDone) /\
  read_kotlin text = Some f /\ ~ Forall constraints_known (ki_decls f).
Proof. exact constraint_refuted. Qed.
Print Assumptions C75_refuted.

(** True for columns whose name can be found from the property. *)
Theorem C75_partial : forall camel lower_camel snake path_join o s output wanted,
  kt_names_ok camel lower_camel (get_prefix (ko_prefix o)) (ko_remove o) (ko_identity o) (ko_relation o) (ko_suffix o) (filter (passes (ko_filter o)) (s_tables s)) ->
  package_ok (ko_package o) ->
  (forall t, In t (filter (passes (ko_filter o)) (s_tables s)) -> annotations (get_annotations (ko_anno o) (t_group t)) (wanted (t_group t))) ->
  (ko_repos o = "" \/ package_ok (ko_repos o) /\ forall t, In t (filter (passes (ko_filter o)) (s_tables s)) -> keys t <> []) ->
  (forall t c, In t (filter (passes (ko_filter o)) (s_tables s)) -> In c (t_cols t) -> c_uq c = true -> snake (lower_camel (c_name c)) = c_name c) ->
  forall file, In file (fst (kt_generate camel lower_camel snake path_join o s output)) -> exists f, read_kotlin (snd file) = Some f /\ Forall constraints_known (ki_decls f).
Proof. exact all_constraints. Qed.
Print Assumptions C75_partial.

Example C75_case : (forall t c, In t (s_tables kt_user) -> In c (t_cols t) -> kt_snake (kt_lower_camel (c_name c)) = c_name c) /\
  existsb (fun t => existsb c_uq (t_cols t)) (s_tables kt_user) = true.
Proof.
  split; [|reflexivity]. intros t c [<-|[<-|[]]] C; cbn in C; repeat (destruct C as [<-|C]; [reflexivity|]); destruct C.
Qed.

(** C76. False: an id that may be null does not override the property of the interface. *)
Theorem C76_refuted : exists camel lower_camel snake path_join o s output path text f,
  (forall t, In t (filter (passes (ko_filter o)) (s_tables s)) -> word (t_name t) /\ identifier (class_named camel (get_prefix (ko_prefix o)) (ko_remove o) t) = true /\
     forall c, In c (t_cols t) -> word (c_name c) /\ In (c_type c) octopus_types) /\
  package_ok (ko_package o) /\
  identifier (ko_identity o) = true /\
  kt_generate camel lower_camel snake path_join o s output = ([(path, text)], KtDone) /\
  read_kotlin text = Some f /\ ~ Forall (id_overridden (ko_identity o)) (ki_decls f).
Proof. exact id_refuted. Qed.
Print Assumptions C76_refuted.

(** True if no such id may be null. *)
Theorem C76_partial : forall camel lower_camel snake path_join o s output wanted,
  kt_names_ok camel lower_camel (get_prefix (ko_prefix o)) (ko_remove o) (ko_identity o) (ko_relation o) (ko_suffix o) (filter (passes (ko_filter o)) (s_tables s)) ->
  package_ok (ko_package o) ->
  (forall t, In t (filter (passes (ko_filter o)) (s_tables s)) -> annotations (get_annotations (ko_anno o) (t_group t)) (wanted (t_group t))) ->
  (ko_repos o = "" \/ package_ok (ko_repos o) /\ forall t, In t (filter (passes (ko_filter o)) (s_tables s)) -> keys t <> []) ->
  ko_identity o <> "" -> ko_identity o <> "Serializable" ->
  forall file, In file (fst (kt_generate camel lower_camel snake path_join o s output)) -> exists f, read_kotlin (snd file) = Some f /\ Forall (id_overridden (ko_identity o)) (ki_decls f).
Proof. exact all_ids. Qed.
Print Assumptions C76_partial.

Example C76_case : map (fun file => match read_kotlin (snd file) with
      Some (mkKfile _ _ (DClass _ _ ps (Leaf (TWord w) :: _) :: _)) => (w, map (fun p => (kp_name p, kp_override p)) ps) | _ => ("", []) end)
    (firstn 1 (fst (kt_generate kt_camel kt_lower_camel kt_snake (join "/") kt_plain kt_user "out"))) =
  [("IdEntity", [("id", true); ("name", false); ("score", false); ("createdAt", false); ("updatedAt", false)])].
Proof. vm_compute. reflexivity. Qed.
