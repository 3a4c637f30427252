(** Columns whose addition changes other lines (C131) *)
From Coq Require Import String Ascii List NArith Bool.
From Verif.Model Require Import GoString Util Octopus Common Mysql Quickdbd Plantuml Dbml Graphql.
From Verif.Spec Require Import Text Reading LocalSpec WidenSpec.
From Verif.Proofs Require Import StringLemmas LocalProofs.
Import ListNotations.
Local Open Scope string_scope.

(** decides [sub] *)
Fixpoint subb (l l' : list string) : bool :=
  match l, l' with
  | [], _ => true
  | _, [] => false
  | x :: r, y :: r' => if String.eqb x y then subb r r' else subb l r'
  end.
Lemma sub_tail : forall {A} (x : A) l l', sub (x :: l) l' -> sub l l'.
Proof. intros A x l l' H. eapply sub_trans; [|exact H]. constructor. apply sub_refl. Qed.
Lemma sub_subb : forall l' l, sub l l' -> subb l l' = true.
Proof.
  induction l' as [|y l' IH]; intros [|x l] H; cbn [subb]; try reflexivity; [inversion H|].
  destruct (String.eqb_spec x y) as [<-|N]; inversion H; subst; try congruence; apply IH; try assumption.
  now apply (sub_tail x).
Qed.
Lemma not_adds : forall x y, subb (file_lines x) (file_lines y) = false -> ~ only_adds x y.
Proof. intros x y E H. apply sub_subb in H. congruence. Qed.

Definition wd_id : column := mkCol "id" "int64" "" 0 0 true true false true "" "" [] None.
Definition wd_part : column := mkCol "part" "int64" "" 0 0 true true false false "" "" [] None.
Definition wd_name : column := mkCol "name" "varchar" "the name" 40 0 true false true false "" "" [] None.
Definition wd_mail : column := mkCol "mail" "varchar" "" 40 0 false false false false "" "" [] None.
Definition wd_boss : column := mkCol "boss" "int64" "" 0 0 false false false false "" "" [] (Some (mkRef "user" "id" "n:1")).
Definition wd_schema (cs ds : list column) : schema :=
  mkSchema "me" "store" "1" [mkTable "group" cs "" "" "" []; mkTable "user" ds "people" "" "" []].

Lemma wd_widened : forall cs ds cs' ds', sub cs cs' -> sub ds ds' -> widened (wd_schema cs ds) (wd_schema cs' ds').
Proof.
  intros cs ds cs' ds' S T. refine (conj eq_refl (conj eq_refl (conj eq_refl _))).
  constructor; [|constructor; [|constructor]]; refine (conj eq_refl (conj eq_refl (conj eq_refl (conj eq_refl (conj eq_refl _))))); assumption.
Qed.
Ltac added := repeat first [apply sub_nil | apply sub_keep | apply sub_add].

Definition same_word (s : string) : string := s.
(** a second column of the primary key: id is of type ID no longer *)
Lemma graphql_not : exists s s', widened s s' /\
  ~ only_adds (gql_text same_word same_word same_word None [] (mkPM "" [] false) s) (gql_text same_word same_word same_word None [] (mkPM "" [] false) s').
Proof.
  exists (wd_schema [wd_id] [wd_id]), (wd_schema [wd_id] [wd_id; wd_part]). split.
  - apply wd_widened; added.
  - apply not_adds. vm_compute. reflexivity.
Qed.
(** a column before the primary key: the line between them moves *)
Lemma plantuml_not : exists s s', widened s s' /\ Forall2 keys_kept (s_tables s) (s_tables s') /\ ~ only_adds (puml_text s) (puml_text s').
Proof.
  exists (wd_schema [wd_id] [wd_id; wd_name]), (wd_schema [wd_id] [wd_mail; wd_id; wd_name]). split; [|split].
  - apply wd_widened; added.
  - constructor; [|constructor; [|constructor]]; (split; [reflexivity|]; split; [reflexivity|]; left; discriminate).
  - apply not_adds. vm_compute. reflexivity.
Qed.
(** a column at the end of a table without keys: the one before gets a comma *)
Lemma mysql_not : exists s s', widened s s' /\ Forall2 key_kept (s_tables s) (s_tables s') /\
  ~ only_adds (my_export None "" s) (my_export None "" s').
Proof.
  exists (wd_schema [wd_id] [wd_boss]), (wd_schema [wd_id] [wd_boss; wd_mail]). split; [|split].
  - apply wd_widened; added.
  - constructor; [|constructor; [|constructor]]; reflexivity.
  - apply not_adds. vm_compute. reflexivity.
Qed.
