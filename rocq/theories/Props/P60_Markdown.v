(** The Markdown writer (C136) and the values of SQL literals (C137) *)
From Coq Require Import String Ascii List NArith ZArith Bool.
From Verif.Model Require Import GoString MarkdownWriter.
From Verif.Spec Require Import Text Reading MarkdownReading MarkdownCalls.
From Verif.Proofs Require Import MarkdownWriterProofs.
Import ListNotations.
Local Open Scope string_scope.

(** C136. Full statement: for every series of calls. False: code may have a fence of its own in it. *)
Theorem C136_refuted : exists c, read_markdown (document [c]) <> [meant c] /\ exists ls, c = CSqls ls /\ Forall one_line ls.
Proof. exact fence_inside. Qed.
Print Assumptions C136_refuted.

(** Partial: no text has a line break where one line is asked for, no line looks like something else. *)
Theorem C136_document_partial : forall cs, Forall call_ok cs -> read_markdown (document cs) = map meant cs.
Proof. exact document_reads. Qed.
Print Assumptions C136_document_partial.

Definition md_example : list call :=
  [CH1 "Changes"; CLine ""; CH2 "user"; CSqls ["alter table user"; "  add id int;"]; CLine "* `id` added"; CH3 "# code";
   CCode "go" "a := 1
b := `x`"].
Example C136_case : Forall call_ok md_example /\ document md_example =
"# Changes

## user
```sql
alter table user
  add id int;
```
* `id` added
### # code
```go
a := 1
b := `x`
```
".
Proof.
  split; [|vm_compute; reflexivity].
  repeat apply Forall_cons; try apply Forall_nil; cbn [call_ok];
    repeat match goal with
           | |- _ /\ _ => split
           | |- one_line _ => apply plain_one; reflexivity
           | |- lang_ok _ => split; [apply plain_one; reflexivity | reflexivity]
           | |- Forall _ (lines _) => change (Forall no_fence ["a := 1"; "b := `x`"])
           | |- Forall _ _ => repeat apply Forall_cons; try apply Forall_nil
           | |- no_fence _ => reflexivity
           | |- _ = _ => reflexivity
           end.
Qed.

(** C137. A number that fits in 64 bits is its value; anything else, and nil, is the default. *)
Theorem C137_int : forall v d z, sql_val_to_int v d = z <->
  (exists s, v = Some s /\ denotes s z /\ int64 z) \/ (z = d /\ forall s x, v = Some s -> denotes s x -> ~ int64 x).
Proof. exact sql_int. Qed.
Print Assumptions C137_int.

Example C137_case :
  map (fun v => sql_val_to_int v 7) [Some "-00120"; Some "9223372036854775807"; Some "9223372036854775808"; Some "1e3"; Some ""; None]
  = [-120; 9223372036854775807; 7; 7; 7; 7]%Z /\ denotes "-00120" (-120).
Proof. split; [vm_compute; reflexivity|]. apply (den_minus "00120" 120). vm_compute. reflexivity. Qed.
