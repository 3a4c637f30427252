(** A table renamed in one of two files that differ in an empty list (C148) *)
From Coq Require Import String Ascii List NArith Bool.
From Verif.Model Require Import GoString Util Octopus DiffCore Diff Liquibase Json NilValues.
From Verif.Proofs Require Import WidenDiffCases.
Import ListNotations.
Local Open Scope string_scope.

(** a file with one table; [more] are further members of its column *)
Definition one_table (name : string) (more : list (string * json)) : json :=
  JObj [("tables", JArr [JObj [("name", JStr name);
    ("columns", JArr [JObj ([("name", JStr "id"); ("type", JStr "int"); ("pk", JBool true)] ++ more)])]])].
Definition nv_empty : list (string * json) := [("values", JArr [])].
Definition nv_col : column := mkCol "id" "int32" "" 0 0 false true false false "" "" [] None.
Definition nv_table (name : string) : table := mkTable name [nv_col] "" "" "" [].
Definition nv_schema (name : string) : schema := mkSchema "" "" "" [nv_table name].

Lemma renamed_lost : exists old new s s',
  load_schema (fun l => l) true old = Some s /\ load_schema (fun l => l) true (one_table "member" []) = Some s' /\
  load_schema (fun l => l) true new = Some s' /\
  get_diff_memory (nils_at (one_table "member" [])) (nils_of old s) (fun l => l) (fun _ l => l) wf_opt s s' =
    Some [mkCS "1-1" "" [RenameTable (nv_table "user") (nv_table "member")]] /\
  get_diff_memory (nils_at new) (nils_of old s) (fun l => l) (fun _ l => l) wf_opt s s' =
    Some [mkCS "1" "" [DropTable (nv_table "user")]; mkCS "2" "" [CreateTable (nv_table "member")]] /\
  exists css, lq_diff_memory (fun _ => true) (nils_at new) (nils_of old s) (fun l => l) (fun _ l => l) wf_log s s' = Some css /\
    In (LqDropTable "user") (flat_map lq_changes css).
Proof.
  exists (one_table "user" []), (one_table "member" nv_empty), (nv_schema "user"), (nv_schema "member").
  repeat (split; [vm_compute; reflexivity|]). eexists. split; [vm_compute; reflexivity|]. left. reflexivity.
Qed.
