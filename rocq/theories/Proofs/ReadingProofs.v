(** Facts about the reading tools *)
From Coq Require Import String Ascii List NArith Bool Lia.
From Verif.Model Require Import GoString.
From Verif.Spec Require Import Text Reading.
From Verif.Proofs Require Import StringLemmas.
Import ListNotations.
Local Open Scope string_scope.

Lemma cut_app : forall c a b, ~ char_in c a -> cut c (a ++ String c b) = Some (a, b).
Proof.
  induction a as [|d a IH]; intros b H; cbn [append cut].
  - now rewrite Ascii.eqb_refl.
  - destruct (Ascii.eqb_spec c d) as [->|N]; [exfalso; apply H; now left|].
    rewrite IH; [reflexivity|]. intros Q. apply H. now right.
Qed.
Lemma cut_none : forall c a, ~ char_in c a -> cut c a = None.
Proof.
  induction a as [|d a IH]; intros H; cbn [cut]; [reflexivity|].
  destruct (Ascii.eqb_spec c d) as [->|N]; [exfalso; apply H; now left|].
  rewrite IH; [reflexivity|]. intros Q. apply H. now right.
Qed.

Lemma strip_app : forall p s, strip p (p ++ s) = Some s.
Proof. induction p as [|c p IH]; intros s; [now destruct s|]. cbn. now rewrite Ascii.eqb_refl. Qed.

Lemma strip_end_app : forall p s, strip_end p (s ++ p) = Some s.
Proof.
  induction s as [|c s IH]; cbn [append].
  - destruct p; cbn [strip_end]; now rewrite String.eqb_refl.
  - cbn [strip_end]. destruct (String.eqb_spec (String c (s ++ p)) p) as [E|N].
    + exfalso. assert (L : String.length (String c (s ++ p)) = String.length p) by now rewrite E.
      cbn in L. rewrite length_app_s in L. lia.
    + now rewrite IH.
Qed.
Lemma between_app : forall p q s, between p q (p ++ s ++ q) = Some s.
Proof. intros. unfold between. rewrite strip_app. apply strip_end_app. Qed.

Lemma lines_one : forall s, one_line s -> lines s = [s].
Proof.
  induction s as [|c s IH]; intros H; cbn [lines]; [reflexivity|].
  destruct (Ascii.eqb_spec c newline) as [->|N]; [exfalso; apply H; now left|].
  rewrite IH; [reflexivity|]. intros Q. apply H. now right.
Qed.
Lemma lines_cons : forall s r, one_line s -> lines (s ++ String newline r) = s :: lines r.
Proof.
  induction s as [|c s IH]; intros r H; cbn [append lines].
  - now rewrite Ascii.eqb_refl.
  - destruct (Ascii.eqb_spec c newline) as [->|N]; [exfalso; apply H; now left|].
    rewrite IH; [reflexivity|]. intros Q. apply H. now right.
Qed.
Lemma lines_join : forall l, l <> [] -> Forall one_line l -> lines (join (String newline "") l) = l.
Proof.
  induction l as [|x l IH]; intros N F; [congruence|]. inversion F as [|? ? H F']; subst.
  destruct l as [|y l]; [now apply lines_one|].
  change (join (String newline "") (x :: y :: l)) with (x ++ String newline (join (String newline "") (y :: l))).
  rewrite lines_cons by exact H. rewrite IH; [reflexivity|discriminate|exact F'].
Qed.

Lemma split_on_cons : forall c s r, ~ char_in c s -> split_on c (s ++ String c r) = s :: split_on c r.
Proof.
  induction s as [|d s IH]; intros r H; cbn [append split_on].
  - now rewrite Ascii.eqb_refl.
  - destruct (Ascii.eqb_spec d c) as [->|N]; [exfalso; apply H; now left|].
    rewrite IH; [reflexivity|]. intros Q. apply H. now right.
Qed.
Lemma split_on_one : forall c s, ~ char_in c s -> split_on c s = [s].
Proof.
  induction s as [|d s IH]; intros H; cbn [split_on]; [reflexivity|].
  destruct (Ascii.eqb_spec d c) as [->|N]; [exfalso; apply H; now left|].
  rewrite IH; [reflexivity|]. intros Q. apply H. now right.
Qed.
Definition at_space (s : string) : Prop := s = "" \/ exists r, s = String " " r.
Lemma until_space_app : forall a b, ~ char_in " " a -> at_space b -> until_space (a ++ b) = (a, b).
Proof.
  induction a as [|c a IH]; intros b H S; cbn [append].
  - destruct S as [->|[r ->]]; reflexivity.
  - cbn [until_space]. destruct (Ascii.eqb_spec c " ") as [->|N]; [exfalso; apply H; now left|].
    rewrite IH; [reflexivity| |exact S]. intros Q. apply H. now right.
Qed.
Lemma accept_yes : forall p s, accept p (p ++ s) = (true, s).
Proof. intros. unfold accept. now rewrite strip_app. Qed.

Lemma read_all_map : forall {A B C} (f : B -> option C) (g : A -> B) (h : A -> C) l,
  (forall x, In x l -> f (g x) = Some (h x)) -> read_all f (map g l) = Some (map h l).
Proof.
  induction l as [|x l IH]; intros H; cbn; [reflexivity|].
  rewrite (H x (or_introl eq_refl)), IH; [reflexivity|]. intros y I. apply H. now right.
Qed.
Lemma read_all_app : forall {A B} (f : A -> option B) l1 l2 r1 r2,
  read_all f l1 = Some r1 -> read_all f l2 = Some r2 -> read_all f (l1 ++ l2) = Some (r1 ++ r2)%list.
Proof.
  induction l1 as [|x l IH]; intros l2 r1 r2 H1 H2; cbn in *; [injection H1 as <-; exact H2|].
  destruct (f x) as [y|]; [|discriminate]. destruct (read_all f l) as [ys|] eqn:E; [|discriminate].
  injection H1 as <-. now rewrite (IH l2 ys r2 eq_refl H2).
Qed.

(** ** Words *)

Lemma word_no : forall s c, word s -> word_char c = false -> ~ char_in c s.
Proof. intros s c [_ H] E I. apply H in I. congruence. Qed.
Lemma word_one_line : forall s, word s -> one_line s.
Proof. intros s H. now apply (word_no s newline H). Qed.
Lemma one_line_app : forall a b, one_line a -> one_line b -> one_line (a ++ b).
Proof. intros a b A B I. apply char_in_app in I as [I|I]; auto. Qed.
Lemma one_line_nil : one_line "".
Proof. intros []. Qed.
Lemma word_cons : forall s, word s -> exists c r, s = String c r /\ word_char c = true.
Proof.
  intros [|c r] [N H]; [congruence|]. exists c, r. split; [reflexivity|]. apply H. now left.
Qed.

Lemma no_app : forall c a b, ~ char_in c a -> ~ char_in c b -> ~ char_in c (a ++ b).
Proof. intros c a b A B I. apply char_in_app in I as [I|I]; auto. Qed.
Lemma no_cons : forall c d s, c <> d -> ~ char_in c s -> ~ char_in c (String d s).
Proof. intros c d s N H [E|I]; auto. Qed.
Lemma no_nil : forall c, ~ char_in c "".
Proof. intros c []. Qed.
Lemma itoa_no : forall n c, is_digit c = false -> ~ char_in c (itoa n).
Proof. intros n c E I. pose proof (forallb_char_in _ _ _ (itoa_digits n) I). congruence. Qed.

(** closes "character c does not occur in this text" goals *)
Ltac nochar :=
  repeat (first
    [ assumption
    | apply no_nil
    | apply no_app
    | apply no_cons; [discriminate|]
    | match goal with H : word ?s |- ~ char_in ?c ?s => apply (word_no s c H); reflexivity end
    | match goal with H : one_line ?s |- ~ char_in newline ?s => exact H end
    | apply itoa_no; reflexivity ]).
Ltac oneline := unfold one_line; nochar.
