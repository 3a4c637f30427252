(** General facts about lists *)
From Coq Require Import List Lia Arith Sorting.Permutation Bool.
Import ListNotations.

Lemma skipn_skipn : forall {A} x y (l : list A), skipn x (skipn y l) = skipn (x + y) l.
Proof.
  induction y; intros l.
  - now rewrite Nat.add_0_r.
  - rewrite Nat.add_succ_r. destruct l; simpl; [now rewrite skipn_nil|apply IHy].
Qed.

Lemma NoDup_snoc : forall {A} (l : list A) x, NoDup l -> ~ In x l -> NoDup (l ++ [x]).
Proof.
  intros. apply NoDup_rev in H. rewrite <- (rev_involutive (l ++ [x])). apply NoDup_rev.
  rewrite rev_app_distr. simpl. constructor; auto. now rewrite <- in_rev.
Qed.

Lemma Forall2_in_r : forall {A B} (R : A -> B -> Prop) l l' y,
  Forall2 R l l' -> In y l' -> exists x, In x l /\ R x y.
Proof.
  induction 1; simpl; intros Hy; [destruct Hy|]. destruct Hy as [->|Hy].
  - exists x. auto.
  - destruct (IHForall2 Hy) as [z [H1 H2]]. exists z. auto.
Qed.

Lemma Forall2_in_l : forall {A B} (R : A -> B -> Prop) l l' x,
  Forall2 R l l' -> In x l -> exists y, In y l' /\ R x y.
Proof.
  induction 1; simpl; intros Hy; [destruct Hy|]. destruct Hy as [->|Hy].
  - exists y. auto.
  - destruct (IHForall2 Hy) as [z [H1 H2]]. exists z. auto.
Qed.

Lemma NoDup_app_r : forall {A} (l l' : list A), NoDup (l ++ l') -> NoDup l'.
Proof. induction l; simpl; intros l' H; auto. inversion H; subst. auto. Qed.
Lemma NoDup_app_l : forall {A} (l l' : list A), NoDup (l ++ l') -> NoDup l.
Proof.
  induction l; simpl; intros l' H; [constructor|]. inversion H as [|? ? NI ND]; subst. constructor; eauto.
  intros C. apply NI. apply in_or_app. auto.
Qed.
Lemma NoDup_app_disj : forall {A} (l l' : list A) x, NoDup (l ++ l') -> In x l -> ~ In x l'.
Proof.
  induction l; simpl; intros l' x H Hx; [destruct Hx|]. inversion H as [|? ? NI ND]; subst.
  destruct Hx as [->|Hx]; eauto. intros C. apply NI. apply in_or_app. auto.
Qed.
Lemma NoDup_app_intro : forall {A} (l l' : list A), NoDup l -> NoDup l' -> (forall x, In x l -> ~ In x l') -> NoDup (l ++ l').
Proof.
  induction l; simpl; intros l' H H' D; auto. inversion H as [|? ? NI ND]; subst. constructor; auto.
  intros C. apply in_app_or in C. destruct C as [C|C]; auto. now apply (D a); auto.
Qed.
