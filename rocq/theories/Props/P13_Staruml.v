(** Properties of the StarUML import *)
From Coq Require Import String Ascii List NArith Bool.
From Verif.Model Require Import GoString Octopus Common Json Staruml.
From Verif.Spec Require Import Text XlsxSpec StarumlSpec.
From Verif.Proofs Require Import StarumlProofs.
Import ListNotations.
Local Open Scope string_scope.

(** C41. False as stated: a reference to an element that does not exist, *)
Theorem C41_dangling_refuted : exists root, no_null root /\ import_staruml root = Panic.
Proof. exact dangling_panics. Qed.
Print Assumptions C41_dangling_refuted.

(** or a null anywhere in the lists of elements. *)
Theorem C41_null_refuted : forall root, ~ no_null root -> import_staruml root = Panic.
Proof. exact null_panics. Qed.
Print Assumptions C41_null_refuted.

(** Otherwise the import does not panic; it fails exactly if there is no data model. *)
Theorem C41_no_crash_partial : forall root, no_null root -> references_ok root ->
  (of_type "ERDDataModel" (e_owned root) = [] -> import_staruml root = Ok None) /\
  (of_type "ERDDataModel" (e_owned root) <> [] -> exists s, import_staruml root = Ok (Some s)).
Proof. exact import_ok. Qed.
Print Assumptions C41_no_crash_partial.

(** Whatever is imported is one table per entity of the first data model and one column per column of
    the entity, in order; a reference names the target column and the table it belongs to. *)
Theorem C41_described : forall root s, import_staruml root = Ok (Some s) ->
  exists model rest, of_type "ERDDataModel" (e_owned root) = model :: rest /\
    s_version s = e_name root /\ s_name s = "" /\ s_author s = "" /\
    Forall2 (entity_described root) (of_type "ERDEntity" (e_owned model)) (s_tables s).
Proof. exact import_described. Qed.
Print Assumptions C41_described.

Example C41_case : no_null (st_project "g1" (JStr "40")) /\ references_ok (st_project "g1" (JStr "40")) /\
  import_staruml (st_project "g1" (JStr "40")) = Ok (Some (mkSchema "" "" "1.0"
    [mkTable "group" [mkCol "id" "int64" "the column" 0 0 true true false false "" "" [] None;
                      mkCol "name" "varchar" "the column" 40 0 false false false false "" "" [] None] "" "" "" [];
     mkTable "user" [mkCol "gid" "int64" "the column" 0 0 false false false false "" "" []
                       (Some (mkRef "group" "id" ""))] "" "" "" []])).
Proof. split; [exact (proj1 st_case_ok)|]. split; [exact (proj2 st_case_ok)|]. vm_compute. reflexivity. Qed.

(** C63. False as stated: a length given as a JSON number is ignored. *)
Theorem C63_number_refuted : exists root s t c e, no_null root /\ references_ok root /\ import_staruml root = Ok (Some s) /\
  In t (s_tables s) /\ In c (t_cols t) /\ in_tree e root /\ st_column_described root e c /\ ~ number_described e c.
Proof. exact number_ignored. Qed.
Print Assumptions C63_number_refuted.

(** A length given as a text is the size, without a length the size of the type text counts. *)
Theorem C63_size_partial : forall m e c, st_column m e = Ok c -> size_described e c.
Proof. exact column_sizes. Qed.
Print Assumptions C63_size_partial.

Example C63_case : match st_column [] (st_col "c" "price" "decimal(10,2)" (JStr "12") false None "t") with
  | Ok c => (c_type c, c_size c, c_scale c) = ("decimal", 12%N, 2%N)
  | Panic => False end.
Proof. vm_compute. reflexivity. Qed.
