(** How the exporter's text is cut into tokens *)
From Coq Require Import String Ascii List NArith ZArith Bool Lia.
From Verif.Model Require Import GoString Util Octopus Mysql.
From Verif.Spec Require Import Text MysqlGrammar MysqlSpec.
From Verif.Proofs Require Import StringLemmas.
Import ListNotations.
Local Open Scope string_scope.
Local Open Scope list_scope.
Infix "^" := String.append (right associativity, at level 30) : list_scope.

Definition chr (c : ascii) : string := String c "".

(** the next character ends a word, a quoted name or a string *)
Definition stop_char (c : ascii) : bool := is_space c || is_sym c.
Definition stops (s : string) : Prop := match s with EmptyString => True | String c _ => stop_char c = true end.

Definition put (ts : list tok) (r : option (list tok)) : option (list tok) := option_map (app ts) r.

(** [s] is cut into [ts] when something that stops follows / whatever follows *)
Definition lexes (s : string) (ts : list tok) : Prop :=
  forall rest, stops rest -> lex LStart (s ^ rest) = put ts (lex LStart rest).
Definition lexes_any (s : string) (ts : list tok) : Prop :=
  forall rest, lex LStart (s ^ rest) = put ts (lex LStart rest).

Lemma put_put : forall a b r, put a (put b r) = put (a ++ b) r.
Proof. intros a b [l|]; simpl; [now rewrite app_assoc|reflexivity]. Qed.

Lemma any_lexes : forall s ts, lexes_any s ts -> lexes s ts.
Proof. intros s ts H rest _. apply H. Qed.

Lemma lexes_any_app : forall a b ta tb, lexes_any a ta -> lexes b tb -> lexes (a ^ b) (ta ++ tb).
Proof. intros a b ta tb Ha Hb rest Hr. rewrite app_assoc_s, Ha, Hb by assumption. apply put_put. Qed.

Lemma lexes_any_any : forall a b ta tb, lexes_any a ta -> lexes_any b tb -> lexes_any (a ^ b) (ta ++ tb).
Proof. intros a b ta tb Ha Hb rest. rewrite app_assoc_s, Ha, Hb. apply put_put. Qed.

Lemma stops_app : forall b r, b <> "" -> stops b -> stops (b ^ r).
Proof. intros [|c b] r H S; [congruence|exact S]. Qed.

Lemma lexes_app : forall a b ta tb, lexes a ta -> b <> "" -> stops b -> lexes b tb -> lexes (a ^ b) (ta ++ tb).
Proof.
  intros a b ta tb Ha Hn S Hb rest Hr. rewrite app_assoc_s, Ha, Hb by (auto using stops_app). apply put_put.
Qed.

Lemma lexes_app_any : forall a b ta tb, lexes a ta -> b <> "" -> stops b -> lexes_any b tb -> lexes_any (a ^ b) (ta ++ tb).
Proof.
  intros a b ta tb Ha Hn S Hb rest. rewrite app_assoc_s, Ha, Hb by (auto using stops_app). apply put_put.
Qed.

Lemma lexes_nil : lexes_any "" [].
Proof. intros rest. simpl. now destruct (lex LStart rest). Qed.

(** ** Single tokens *)

Lemma lex_emit : forall t r, emit_tok t r = put [t] r.
Proof. reflexivity. Qed.

Lemma stop_not_word : forall c, stop_char c = true -> is_word_char c = false.
Proof. intros [[] [] [] [] [] [] [] []] H; try reflexivity; vm_compute in H; discriminate. Qed.
Lemma stop_not_quote : forall c, stop_char c = true -> Ascii.eqb c "'" = false /\ Ascii.eqb c "`" = false.
Proof. intros [[] [] [] [] [] [] [] []] H; split; try reflexivity; vm_compute in H; discriminate. Qed.
Lemma word_not_space : forall c, is_word_char c = true -> is_space c = false.
Proof. intros [[] [] [] [] [] [] [] []] H; try reflexivity; vm_compute in H; discriminate. Qed.

Lemma sym_token : forall c, is_sym c = true -> lexes_any (chr c) [TSym c].
Proof.
  intros c H rest. unfold chr. simpl.
  destruct c as [[] [] [] [] [] [] [] []]; vm_compute in H; try discriminate H; reflexivity.
Qed.

Lemma space_token : forall c, is_space c = true -> lexes_any (chr c) [].
Proof. intros c H rest. unfold chr. simpl. rewrite H. now destruct (lex LStart rest). Qed.

(** what follows a finished word, name or text *)
Lemma word_end : forall a rest, stops rest -> lex (LWord a) rest = put [TWord a] (lex LStart rest).
Proof.
  intros a [|c rest] H; [reflexivity|]. cbn [lex]. rewrite (stop_not_word c H). reflexivity.
Qed.
Lemma text_end : forall a rest, stops rest -> lex (LTextQ a) rest = put [TText a] (lex LStart rest).
Proof.
  intros a [|c rest] H; [reflexivity|]. cbn [lex]. rewrite (proj1 (stop_not_quote c H)). reflexivity.
Qed.
Lemma name_end : forall a rest, stops rest -> lex (LNameQ a) rest = put [TName a] (lex LStart rest).
Proof.
  intros a [|c rest] H; [reflexivity|]. cbn [lex]. rewrite (proj2 (stop_not_quote c H)). reflexivity.
Qed.

Lemma word_run : forall w a rest, all_chars (fun c => is_word_char c = true) w ->
  lex (LWord a) (w ^ rest) = lex (LWord (a ^ w)) rest.
Proof.
  induction w as [|c w IH]; intros a rest H.
  - now rewrite app_nil_r_s.
  - cbn [String.append lex]. rewrite (H c) by now left. rewrite IH by (intros d Hd; apply H; now right).
    f_equal. f_equal. rewrite app_assoc_s. reflexivity.
Qed.

Lemma text_run : forall s a rest, plain_text s -> lex (LText a) (s ^ rest) = lex (LText (a ^ s)) rest.
Proof.
  induction s as [|c s IH]; intros a rest [H1 H2].
  - now rewrite app_nil_r_s.
  - cbn [String.append lex].
    destruct (Ascii.eqb c "'") eqn:E1; [apply Ascii.eqb_eq in E1; subst c; exfalso; apply H1; now left|].
    destruct (Ascii.eqb c backslash) eqn:E2; [apply Ascii.eqb_eq in E2; subst c; exfalso; apply H2; now left|].
    rewrite IH by (split; intros X; [apply H1|apply H2]; now right).
    f_equal. f_equal. rewrite app_assoc_s. reflexivity.
Qed.

Lemma name_run : forall s a rest, ~ char_in "`" s -> lex (LName a) (s ^ rest) = lex (LName (a ^ s)) rest.
Proof.
  induction s as [|c s IH]; intros a rest H.
  - now rewrite app_nil_r_s.
  - cbn [String.append lex].
    destruct (Ascii.eqb c "`") eqn:E1; [apply Ascii.eqb_eq in E1; subst c; exfalso; apply H; now left|].
    rewrite IH by (intros X; apply H; now right).
    f_equal. f_equal. rewrite app_assoc_s. reflexivity.
Qed.

Lemma word_token : forall w, w <> "" -> all_chars (fun c => is_word_char c = true) w -> lexes w [TWord w].
Proof.
  intros [|c w] Hn H rest Hr; [congruence|]. cbn [String.append lex].
  rewrite (word_not_space c), (H c) by (try apply H; now left).
  rewrite word_run by (intros d Hd; apply H; now right). apply word_end. exact Hr.
Qed.

Lemma text_token : forall s, plain_text s -> lexes ("'" ^ s ^ "'") [TText s].
Proof.
  intros s H rest Hr. rewrite !app_assoc_s. change (lex LStart ("'" ^ s ^ "'" ^ rest)) with (lex (LText "") (s ^ "'" ^ rest)).
  rewrite text_run by exact H. change (lex (LText ("" ^ s)) ("'" ^ rest)) with (lex (LTextQ s) rest). apply text_end. exact Hr.
Qed.

Lemma name_token : forall s, ~ char_in "`" s -> lexes ("`" ^ s ^ "`") [TName s].
Proof.
  intros s H rest Hr. rewrite !app_assoc_s. change (lex LStart ("`" ^ s ^ "`" ^ rest)) with (lex (LName "") (s ^ "`" ^ rest)).
  rewrite name_run by exact H. change (lex (LName ("" ^ s)) ("`" ^ rest)) with (lex (LNameQ s) rest). apply name_end. exact Hr.
Qed.

Lemma digit_word : forall c, is_digit c = true -> is_word_char c = true.
Proof. intros c H. unfold is_word_char. rewrite H, orb_true_r. reflexivity. Qed.

Lemma all_chars_forallb : forall f s, string_forallb f s = true -> all_chars (fun c => f c = true) s.
Proof. intros f s H c Hc. eapply forallb_char_in; eauto. Qed.

Lemma forallb_all_chars : forall f s, all_chars (fun c => f c = true) s -> string_forallb f s = true.
Proof.
  intros f. induction s as [|c s IH]; intros H; [reflexivity|]. simpl. rewrite (H c) by now left.
  apply IH. intros d Hd. apply H. now right.
Qed.

Lemma itoa_token : forall n, lexes (itoa n) [TWord (itoa n)].
Proof.
  intros n. apply word_token; [apply itoa_nonempty|]. intros c Hc. apply digit_word.
  eapply forallb_char_in; eauto. apply itoa_digits.
Qed.

(** fixed words *)
Ltac fixed_word := apply word_token; [discriminate|apply all_chars_forallb; reflexivity].

Lemma is_digits_itoa : forall n, is_digits (itoa n) = true.
Proof.
  intros n. unfold is_digits. rewrite itoa_digits. simpl. destruct (String.eqb (itoa n) "") eqn:E; [|reflexivity].
  apply String.eqb_eq in E. now apply itoa_nonempty in E.
Qed.

(** ** Lists *)

Definition comma_sep {A} (f : A -> list tok) : list A -> list tok :=
  fix go l := match l with
              | [] => []
              | [x] => f x
              | x :: l' => f x ++ TSym "," :: go l'
              end.

Lemma comma_space : lexes_any ", " [TSym ","].
Proof. change ", " with (chr "," ^ chr " "). apply (lexes_any_any _ _ [TSym ","] []); [now apply sym_token|now apply space_token]. Qed.

Lemma join_lexes : forall {A} (g : A -> string) (f : A -> list tok) l,
  (forall x, In x l -> lexes (g x) (f x)) -> l <> [] -> lexes (join ", " (map g l)) (comma_sep f l).
Proof.
  intros A g f l. induction l as [|x l IH]; intros H Hn; [congruence|].
  destruct l as [|y l].
  - simpl. apply H. now left.
  - cbn [map join comma_sep]. apply lexes_app; [apply H; now left|discriminate|reflexivity|].
    change (TSym "," :: ?r) with ([TSym ","] ++ r). apply lexes_any_app; [apply comma_space|].
    apply IH; [|discriminate]. intros z Hz. apply H. now right.
Qed.

Lemma paren_lexes : forall s ts, lexes s ts -> lexes_any ("(" ^ s ^ ")") (TSym "(" :: ts ++ [TSym ")"]).
Proof.
  intros s ts H. change (TSym "(" :: ts ++ [TSym ")"]) with ([TSym "("] ++ (ts ++ [TSym ")"])).
  change ("(" ^ s ^ ")") with (chr "(" ^ (s ^ chr ")")). apply lexes_any_any; [now apply sym_token|].
  apply lexes_app_any; [exact H|discriminate|reflexivity|now apply sym_token].
Qed.

(** parts separated by a blank *)
Lemma space_join : forall a b ta tb, lexes a ta -> lexes b tb -> lexes (a ^ " " ^ b) (ta ++ tb).
Proof.
  intros a b ta tb Ha Hb. apply lexes_app; [exact Ha|discriminate|reflexivity|].
  change (" " ^ b) with (chr " " ^ b). apply (lexes_any_app _ _ []); auto. now apply space_token.
Qed.

Lemma lex_all : forall s ts, lexes s ts -> lex_sql s = Some ts.
Proof.
  intros s ts H. unfold lex_sql. rewrite <- (app_nil_r_s s), (H "" I). simpl. now rewrite app_nil_r.
Qed.
