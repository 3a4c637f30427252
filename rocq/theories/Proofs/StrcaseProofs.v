(** The naming functions of the library keep names in snake case apart (C95, C96) *)
From Coq Require Import String Ascii List NArith Bool Lia.
From Verif.Model Require Import GoString Strcase.
From Verif.Spec Require Import NamesSpec.
From Verif.Spec Require SqlalchemySpec.
From Verif.Proofs Require Import StringLemmas.
Import ListNotations.
Local Open Scope string_scope.

Ltac all_ascii c := destruct c as [[] [] [] [] [] [] [] []]; vm_compute; try reflexivity; try discriminate; intuition discriminate.

(** read camel case back *)
Fixpoint words_of (s : string) : string :=
  match s with
  | "" => ""
  | String c s' => if is_upper c then String "_" (String (lower_ascii c) (words_of s')) else String c (words_of s')
  end.
Lemma lower_back : forall c, is_lower c = true -> is_upper (upper_ascii c) = true /\ lower_ascii (upper_ascii c) = c /\ is_letter c = true /\ is_upper c = false /\ lower_ascii c = c.
Proof. intros c. all_ascii c. Qed.
Lemma digit_same : forall c, is_digit c = true -> upper_ascii c = c /\ is_letter c = false /\ is_upper c = false /\ lower_ascii c = c.
Proof. intros c. all_ascii c. Qed.

Lemma camel_back : forall s,
  (snake_from InLetters s = true -> words_of (camel_loop false false s) = s) /\
  (snake_from InDigits s = true -> words_of (camel_loop false true s) = s) /\
  (snake_from AtStart s = true -> words_of (camel_loop false true s) = String "_" s).
Proof.
  induction s as [|c s (IL & ID & IS)]; [split; [reflexivity|split; [reflexivity|discriminate]]|]. cbn [snake_from camel_loop].
  destruct (is_lower c) eqn:L.
  - destruct (lower_back c L) as (U & D & Lt & NU & _). rewrite Lt. split; [|split].
    + intros H. cbn [words_of]. rewrite NU. now rewrite (IL H).
    + discriminate.
    + intros H. cbn [words_of]. rewrite U, D. now rewrite (IL H).
  - destruct (is_digit c) eqn:G.
    + destruct (digit_same c G) as (U & Lt & NU & _). rewrite Lt, U. split; [|split; [|discriminate]]; intros H; cbn [words_of]; rewrite NU; now rewrite (ID H).
    + destruct (Ascii.eqb_spec c "_") as [->|]; [|split; [discriminate|split; discriminate]]. cbn.
      split; [|split; [|discriminate]]; intros H; exact (IS H).
Qed.

Lemma snake_plain : forall s i, snake_from i s = true -> string_forallb (fun c => negb (is_space c) && negb (is_upper c)) s = true.
Proof.
  induction s as [|c s IH]; intros i H; [reflexivity|]. cbn [string_forallb]. cbn [snake_from] in H. apply andb_true_iff. split.
  - destruct (is_lower c) eqn:L; [revert L; clear; all_ascii c|]. destruct (is_digit c) eqn:D; [revert D; clear; all_ascii c|].
    destruct (Ascii.eqb_spec c "_") as [->|]; [reflexivity|discriminate].
  - destruct (is_lower c); [destruct i; try discriminate; exact (IH _ H)|]. destruct (is_digit c); [destruct i; try discriminate; exact (IH _ H)|].
    destruct (Ascii.eqb c "_"); [destruct i; try discriminate; exact (IH _ H)|discriminate].
Qed.
Lemma plain_trim : forall s, string_forallb (fun c => negb (is_space c) && negb (is_upper c)) s = true -> trim_space s = s.
Proof.
  intros s H. unfold trim_space. assert (L : trim_left s = s).
  { destruct s as [|c s]; [reflexivity|]. cbn [string_forallb] in H. cbn [trim_left]. destruct (is_space c); [discriminate|reflexivity]. }
  rewrite L. clear L. induction s as [|c s IH]; [reflexivity|]. cbn [string_forallb] in H. cbn [trim_right]. destruct (is_space c); [discriminate|].
  cbn [andb] in *. apply andb_true_iff in H as [_ H]. now rewrite (IH H).
Qed.
Lemma plain_lower : forall s, string_forallb (fun c => negb (is_space c) && negb (is_upper c)) s = true -> to_lower s = s.
Proof.
  induction s as [|c s IH]; intros H; [reflexivity|]. cbn [string_forallb] in H. apply andb_true_iff in H as [C H]. unfold to_lower in *. cbn [string_map].
  rewrite (IH H). f_equal. revert C. clear. all_ascii c.
Qed.
Lemma snake_trim : forall s, snake_case s -> trim_space s = s.
Proof. intros s H. apply plain_trim. exact (snake_plain _ _ H). Qed.
Lemma snake_not_id : forall s, snake_case s -> String.eqb s "ID" = false.
Proof. intros s H. destruct (String.eqb_spec s "ID") as [->|]; [discriminate H|reflexivity]. Qed.

Theorem camel_apart : forall l, Forall snake_case l -> apart strcase_camel l.
Proof.
  intros l F a b A B E. rewrite Forall_forall in F. assert (Q : forall s, snake_case s -> words_of (strcase_camel s) = String "_" s).
  { intros s H. unfold strcase_camel, camel_init. cbv zeta. rewrite (snake_trim s H), (snake_not_id s H).
    assert (X : camel_loop true true s = camel_loop false true s) by (destruct s; reflexivity). rewrite X. now apply camel_back. }
  apply F, Q in A. apply F, Q in B. rewrite E, B in A. now injection A.
Qed.
Theorem lower_camel_apart : forall l, Forall snake_case l -> apart strcase_lower_camel l.
Proof.
  intros l F a b A B E. rewrite Forall_forall in F. assert (Q : forall s, snake_case s -> words_of (strcase_lower_camel s) = s).
  { intros s H. unfold strcase_lower_camel, camel_init. cbv zeta. rewrite (snake_trim s H), (snake_not_id s H). unfold snake_case in H.
    destruct s as [|c s]; [reflexivity|]. cbn [snake_from] in H. destruct (is_lower c) eqn:L.
    - destruct (lower_back c L) as (_ & _ & Lt & NU & Lo). cbn [camel_loop]. rewrite Lt, Lo. cbn [words_of]. rewrite NU. f_equal. now apply camel_back.
    - destruct (is_digit c); [discriminate|]. destruct (Ascii.eqb c "_"); discriminate. }
  apply F, Q in A. apply F, Q in B. congruence.
Qed.

(** read the snake case of the library back *)
Definition starts_digit (s : string) : bool := match s with String d _ => is_digit d | "" => false end.
Fixpoint digits_back (s : string) : string :=
  match s with
  | "" => ""
  | String c s' => if Ascii.eqb c "_" && starts_digit s' then digits_back s' else String c (digits_back s')
  end.
Lemma snake_head : forall s i pc, snake_from i s = true -> starts_digit (snake_loop pc s) = starts_digit s.
Proof.
  intros [|c s] i pc H; [reflexivity|]. cbn [snake_from] in H. cbn [snake_loop starts_digit].
  assert (C : is_upper c = false /\ lower_ascii c = c).
  { destruct (is_lower c) eqn:L; [destruct (lower_back c L) as (_ & _ & _ & A & B); now split|].
    destruct (is_digit c) eqn:D; [destruct (digit_same c D) as (_ & _ & A & B); now split|].
    destruct (Ascii.eqb_spec c "_") as [->|]; [now split|discriminate]. }
  destruct C as (U & E). rewrite U, E. cbn [andb orb].
  assert (P : forall r, starts_digit ((if str_in (String c "") [" "; "_"; "-"; "."] then "_" else String c "") ++ r) = is_digit c).
  { intros r. destruct (str_in (String c "") [" "; "_"; "-"; "."]) eqn:S; [|reflexivity]. cbn [append starts_digit]. revert S. clear. all_ascii c. }
  destruct s as [|d s]; [exact (P "")|]. destruct (_ || _); [reflexivity|apply P].
Qed.
Lemma snake_back : forall s i pc, snake_from i s = true -> digits_back (snake_loop pc s) = s.
Proof.
  induction s as [|c s IH]; intros i pc H; [reflexivity|]. cbn [snake_from] in H. cbn [snake_loop].
  destruct (is_lower c) eqn:L.
  - destruct (lower_back c L) as (_ & _ & _ & U & E). rewrite U, E. cbn [andb orb].
    assert (H' : snake_from InLetters s = true) by (destruct i; [exact H|exact H|discriminate]). clear H.
    assert (N : Ascii.eqb c "_" = false /\ str_in (String c "") [" "; "_"; "-"; "."] = false) by (revert L; clear; intros; split; all_ascii c).
    assert (D : is_digit c = false) by (revert L; clear; intros; all_ascii c).
    destruct N as (N & S). rewrite S, D. assert (R := IH InLetters false H'). assert (Hd := snake_head s InLetters false H').
    destruct s as [|d s]; [cbn; now rewrite N|]. assert (Ud : is_upper d = false).
    { apply snake_plain in H'. cbn [string_forallb] in H'. apply andb_true_iff in H' as [H' _]. apply andb_true_iff in H' as [_ H']. now apply negb_true_iff. }
    rewrite Ud. cbn [andb orb]. destruct (is_digit d) eqn:Dd; cbn [andb orb append].
    + cbn [digits_back]. rewrite N. cbn [andb]. f_equal. cbn [digits_back]. cbn [starts_digit] in Hd. rewrite Hd, Dd. cbn. exact R.
    + cbn [digits_back]. rewrite N. cbn [andb]. now f_equal.
  - destruct (is_digit c) eqn:D.
    + destruct (digit_same c D) as (_ & _ & U & E). rewrite U, E. cbn [andb orb].
      assert (H' : snake_from InDigits s = true) by (destruct i; [discriminate|exact H|exact H]). clear H.
      assert (N : Ascii.eqb c "_" = false /\ str_in (String c "") [" "; "_"; "-"; "."] = false) by (revert D; clear; intros; split; all_ascii c).
      destruct N as (N & S). rewrite S. assert (R := IH InDigits false H').
      destruct s as [|d s]; [cbn; now rewrite N|].
      assert (Ud : is_upper d = false).
      { apply snake_plain in H'. cbn [string_forallb] in H'. apply andb_true_iff in H' as [H' _]. apply andb_true_iff in H' as [_ H']. now apply negb_true_iff. }
      assert (Ld : is_lower d = false) by (cbn [snake_from] in H'; destruct (is_lower d); [discriminate|reflexivity]).
      rewrite Ud, Ld. cbn [andb orb append]. cbn [digits_back]. rewrite N. cbn [andb]. now f_equal.
    + destruct (Ascii.eqb_spec c "_") as [->|]; [|discriminate].
      assert (H' : snake_from AtStart s = true) by (destruct i; [discriminate|exact H|exact H]). clear H.
      assert (R := IH AtStart (is_upper "_") H'). assert (Hd := snake_head s AtStart (is_upper "_") H').
      destruct s as [|d s]; [discriminate|]. change (String "_" (snake_loop (is_upper "_") (String d s))) with ("_" ++ snake_loop (is_upper "_") (String d s)).
      assert (Dd : is_digit d = false).
      { cbn [snake_from] in H'. destruct (is_lower d) eqn:Ld; [revert Ld; clear; intros; all_ascii d|]. destruct (is_digit d); [discriminate|reflexivity]. }
      change (is_upper "_") with false in *. change (is_digit "_") with false. cbn [andb orb].
      change (str_in "_" [" "; "_"; "-"; "."]) with true. cbv iota. cbn [append digits_back]. cbn [starts_digit] in Hd. rewrite Hd, Dd.
      cbn [Ascii.eqb Bool.eqb andb]. now f_equal.
Qed.
Lemma strcase_snake_back : forall s, snake_case s -> digits_back (strcase_snake s) = s.
Proof. intros s H. unfold strcase_snake. rewrite (snake_trim s H). exact (snake_back _ _ _ H). Qed.
Lemma lower_snake_back : forall s, snake_case s -> digits_back (lower_snake strcase_snake s) = s.
Proof. intros s H. unfold lower_snake. rewrite (plain_lower s (snake_plain _ _ H)). now apply strcase_snake_back. Qed.
Theorem lower_snake_apart : forall l, Forall snake_case l -> apart (lower_snake strcase_snake) l.
Proof.
  intros l F a b A B E. rewrite Forall_forall in F. apply F, lower_snake_back in A. apply F, lower_snake_back in B. congruence.
Qed.
Lemma back_underscore : forall s, digits_back (s ++ "_") = digits_back s ++ "_".
Proof.
  induction s as [|c s IH]; [reflexivity|]. cbn [append digits_back]. rewrite IH.
  assert (Q : starts_digit (s ++ "_") = starts_digit s) by (destruct s; reflexivity). rewrite Q. destruct (Ascii.eqb c "_" && starts_digit s); reflexivity.
Qed.
Lemma snake_end : forall s i, snake_from i (s ++ "_") = false.
Proof.
  induction s as [|c s IH]; intros i; cbn [append snake_from]; [destruct i; reflexivity|]. rewrite !IH.
  destruct (is_lower c), (is_digit c), (Ascii.eqb c "_"), i; reflexivity.
Qed.
Theorem snake_py_apart : forall t, NoDup (column_names t) -> Forall snake_case (column_names t) -> py_apart strcase_snake t.
Proof.
  intros t N F. split; [exact N|]. split; [now apply lower_snake_apart|]. rewrite Forall_forall in F. intros a b A B. split.
  - intros _ E. apply F in B. assert (Q := lower_snake_back b B). rewrite E, back_underscore in Q. unfold snake_case in B. rewrite <- Q, snake_end in B. discriminate.
  - intros E. apply F in A. assert (Q := lower_snake_back a A). rewrite E in Q. unfold snake_case in A. rewrite <- Q in A. discriminate.
Qed.
