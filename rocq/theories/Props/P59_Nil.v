(** Null columns and invalid ones in one file (C86) *)
From Coq Require Import String Ascii List NArith Bool.
From Verif.Model Require Import GoString Octopus Common NilColumns.
From Verif.Spec Require Import OctopusSpec NilSpec.
From Verif.Proofs Require Import NilProofs.
Import ListNotations.
Local Open Scope string_scope.

(** C86, what its other theorems leave open: if a file has both a null column and a column that cannot be made valid, the
    first one in the order of the sorted tables decides. Null first: the reader crashes; *)
Theorem C86_order_partial : forall sortf ts, load_ptables sortf ts = Panic <-> nil_first (all_pcols (sortf ts)).
Proof. exact nil_crashes_iff. Qed.
Print Assumptions C86_order_partial.

(** otherwise it returns the tables without an error, nil pointers and all. *)
Theorem C86_nil_returned_partial : forall sortf ts us, load_ptables sortf ts = Ok us ->
  map pt_rest us = map pt_rest (sortf ts) /\ stops_at (all_pcols (sortf ts)) (all_pcols us).
Proof. exact nil_loads. Qed.
Print Assumptions C86_nil_returned_partial.

(** Without null columns this is the reader of the other theorems. *)
Theorem C86_same_reader_partial : forall sortf psortf s, psortf (map lift (s_tables s)) = map lift (sortf (s_tables s)) ->
  load_ptables psortf (map lift (s_tables s)) = Ok (map lift (s_tables (load_schema_decoded sortf s))).
Proof. exact no_nil_loads. Qed.
Print Assumptions C86_same_reader_partial.

Definition nl_table (name : string) (cs : list (option column)) : ptable := mkPTable (mkTable name [] "" "" "" []) cs.
Definition nl_good : column := mkCol "id" "BIGINT" "" 0 0 true true false true "" "" [] None.
Definition nl_bad : column := mkCol "flag" "bool" "" 0 0 true false false false "" "" [] None.
Example C86_order_case :
  load_ptables (fun l => l) [nl_table "a" [Some nl_good]; nl_table "b" [None; Some nl_bad]] = Panic /\
  load_ptables (fun l => l) [nl_table "a" [Some nl_good]; nl_table "b" [Some nl_bad; None]; nl_table "c" [Some nl_good]] =
    Ok [nl_table "a" [Some (with_type nl_good "int64")]; nl_table "b" [Some nl_bad; None]; nl_table "c" [Some nl_good]].
Proof. split; vm_compute; reflexivity. Qed.
Example C86_same_reader_case :
  map lift (isort_tables [mkTable "b" [nl_bad] "" "" "" []; mkTable "a" [nl_good] "" "" "" []]) =
    [nl_table "a" [Some nl_good]; nl_table "b" [Some nl_bad]].
Proof. vm_compute. reflexivity. Qed.
