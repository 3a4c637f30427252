(** The three texts for drawing tools beside each other (C135) *)
From Coq Require Import String Ascii List NArith Bool Permutation.
From Verif.Model Require Import GoString Octopus Dbml Plantuml Quickdbd.
From Verif.Spec Require Import Text Reading OctopusSpec DbmlSpec PlantumlSpec QuickdbdSpec DiagramSpec.
From Verif.Proofs Require Import DiagramProofs DiagramCases.
Import ListNotations.
Local Open Scope string_scope.

(** C135. The texts are read by the three readers of C37, C42 and C43, which know nothing of each other. *)
Theorem C135_agree : forall f s, drawable s -> exists d e r q,
  read_dbml (export_dbml f s) = Some d /\ read_puml (puml_text s) = Some (e, r) /\ read_qdbd (qdbd_text s) = Some q /\
  dbml_picture d = puml_picture e /\ puml_picture e = qdbd_picture q /\
  Permutation (dbml_links d) (qdbd_links q) /\ r = map relation_described (qdbd_links q) /\
  puml_marked e = map (fun l => (l_table l, l_column l)) (qdbd_links q) /\
  map (fun t => map dbml_remarks (d_cols t)) (dbml_tables d) = map (fun t => map qdbd_remarks (q_cols t)) q.
Proof. exact diagrams_agree. Qed.
Print Assumptions C135_agree.

Example C135_case : drawable drawn /\
  option_map dbml_picture (read_dbml (export_dbml None drawn)) =
    Some [("group", [mkShown "id" "int64" true false true; mkShown "rate" "decimal" false false false; mkShown "boss" "int64" false false false]);
          ("user", [mkShown "id" "int64" true false true; mkShown "name" "varchar" false true true;
                    mkShown "group_id" "int64" false false true])] /\
  option_map dbml_links (read_dbml (export_dbml None drawn)) =
    Some [mkLink "user" "group_id" One_to_one "group" "id"; mkLink "group" "boss" Many_to_one "user" "id"] /\
  option_map qdbd_links (read_qdbd (qdbd_text drawn)) =
    Some [mkLink "group" "boss" Many_to_one "user" "id"; mkLink "user" "group_id" One_to_one "group" "id"].
Proof. split; [exact drawn_ok|]. split; [|split]; vm_compute; reflexivity. Qed.
