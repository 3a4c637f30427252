(** The reader of JSON texts accepts what RFC 8259 describes *)
From Coq Require Import String Ascii List NArith ZArith Bool Arith Lia ZifyN.
From Verif.Model Require Import GoString Util Octopus Json JsonText.
From Verif.Spec Require Import Text OctopusSpec JsonSpec JsonGrammar.
From Verif.Proofs Require Import StringLemmas JsonTextProofs ReadUtf8.
Import ListNotations.
Local Open Scope string_scope.

(** ** Blanks *)
Lemma space_iff : forall c, json_space c = true <-> In c [" "; "009"; "010"; "013"]%char.
Proof.
  intros c; split.
  - destruct c as [[] [] [] [] [] [] [] []]; vm_compute; try discriminate; tauto.
  - cbn [In]. intros [<-|[<-|[<-|[<-|[]]]]]; reflexivity.
Qed.
Lemma blanks_cons : forall c s, blanks (String c s) <-> json_space c = true /\ blanks s.
Proof.
  intros c s. unfold blanks. split.
  - intros H. split; [apply space_iff, H; now left|]. intros d D. apply H. now right.
  - intros [A B] d [->|D]; [now apply space_iff|now apply B].
Qed.
Lemma skip_split : forall s, exists a, blanks a /\ s = a ++ skip_space s.
Proof.
  induction s as [|c s (a & A & E)].
  - exists "". split; [intros c []|reflexivity].
  - cbn [skip_space]. destruct (json_space c) eqn:S.
    + exists (String c a). split; [now apply blanks_cons|]. cbn. now f_equal.
    + exists "". split; [intros d []|reflexivity].
Qed.
Lemma skip_blanks : forall a s, blanks a -> skip_space (a ++ s) = skip_space s.
Proof.
  induction a as [|c a IH]; intros s B; [reflexivity|]. apply blanks_cons in B as [C B].
  cbn [append skip_space]. rewrite C. now apply IH.
Qed.
Lemma skip_self : forall s, (match s with String c _ => json_space c = false | "" => True end) -> skip_space s = s.
Proof. intros [|c s] H; [reflexivity|]. cbn. now rewrite H. Qed.
Lemma blanks_nil : blanks "".
Proof. intros c []. Qed.

Lemma next_split : forall c s r, next_is c s = Some r -> exists a, blanks a /\ s = a ++ String c r.
Proof.
  intros c s r. unfold next_is. destruct (skip_split s) as (a & A & E). destruct (skip_space s) as [|d t]; [discriminate|].
  destruct (Ascii.eqb_spec c d) as [<-|_]; [|discriminate]. intros X. injection X as <-. eauto.
Qed.
Lemma next_take : forall c a r, blanks a -> json_space c = false -> next_is c (a ++ String c r) = Some r.
Proof.
  intros c a r A C. unfold next_is. rewrite skip_blanks by assumption. cbn. rewrite C. now rewrite Ascii.eqb_refl.
Qed.
Lemma next_other : forall c a d r, blanks a -> json_space d = false -> c <> d -> next_is c (a ++ String d r) = None.
Proof.
  intros c a d r A D N. unfold next_is. rewrite skip_blanks by assumption. cbn. rewrite D.
  destruct (Ascii.eqb_spec c d); [contradiction|reflexivity].
Qed.

(** ** Numbers *)
Lemma digit_byte : forall c, is_digit c = true <-> byte 48 57 c.
Proof.
  intros c. unfold byte. destruct c as [[] [] [] [] [] [] [] []]; vm_compute; split; intros H;
    first [discriminate H|now split|destruct H as [A B]; exfalso; (now apply A) || (now apply B)].
Qed.
Lemma digits_all : forall d, digits d <-> d <> "" /\ string_forallb is_digit d = true.
Proof.
  intros d; split.
  - induction 1 as [c H|c d H _ [_ IH]]; (split; [discriminate|]); cbn; apply digit_byte in H; rewrite H; [reflexivity|exact IH].
  - intros [N D]. induction d as [|c d IH]; [congruence|]. cbn in D. apply andb_true_iff in D as [D1 D2].
    apply digit_byte in D1. destruct d as [|e d]; [now constructor|]. apply more_digits; [exact D1|]. apply IH; [discriminate|exact D2].
Qed.
Lemma get_digits_split : forall s d r, get_digits s = (d, r) ->
  s = d ++ r /\ string_forallb is_digit d = true.
Proof.
  induction s as [|c s IH]; intros d r; cbn [get_digits].
  - intros E; injection E as <- <-. now split.
  - destruct (is_digit c) eqn:C.
    + destruct (get_digits s) as [x y]. intros E; injection E as <- <-. destruct (IH x y eq_refl) as [-> D].
      split; [reflexivity|]. cbn. now rewrite C.
    + intros E; injection E as <- <-. now split.
Qed.
Lemma get_digits1_split : forall s d r, get_digits1 s = Some (d, r) -> s = d ++ r /\ digits d.
Proof.
  intros s d r. unfold get_digits1. destruct (get_digits s) as [x y] eqn:E. apply get_digits_split in E as [-> D].
  destruct x as [|c x]; [discriminate|]. intros X; injection X as <- <-. split; [reflexivity|]. apply digits_all. now split.
Qed.

(** what may follow a number *)
Definition stops (s : string) : Prop :=
  match s with EmptyString => True | String c _ => In c [" "; "009"; "010"; "013"; ","; "]"; "}"]%char end.
Definition no_digit (s : string) : Prop := match s with EmptyString => True | String c _ => is_digit c = false end.
Lemma get_digits1_take : forall d r, digits d -> no_digit r -> get_digits1 (d ++ r) = Some (d, r).
Proof.
  intros d r D N. apply digits_all in D as [E D]. unfold get_digits1. rewrite digits_read; [|exact D|exact N].
  destruct d; [congruence|reflexivity].
Qed.

Ltac eqbs c := repeat match goal with |- context [Ascii.eqb c ?d] => destruct (Ascii.eqb_spec c d) as [->|?] end.

Lemma get_fraction_split : forall s f r, get_fraction s = Some (f, r) -> s = f ++ r /\ frac_part f.
Proof.
  intros [|c s] f r; cbn [get_fraction].
  - intros E; injection E as <- <-. split; [reflexivity|constructor].
  - destruct (Ascii.eqb_spec c ".") as [->|_].
    + destruct (get_digits1 s) as [[d t]|] eqn:E; [|discriminate]. apply get_digits1_split in E as [-> D].
      intros X; injection X as <- <-. split; [reflexivity|]. now apply (frac d).
    + intros E; injection E as <- <-. split; [reflexivity|constructor].
Qed.
Lemma get_exponent_split : forall s f r, get_exponent s = Some (f, r) -> s = f ++ r /\ exp_part f.
Proof.
  intros [|c s] f r; cbn [get_exponent].
  - intros E; injection E as <- <-. split; [reflexivity|constructor].
  - destruct (Ascii.eqb c "e" || Ascii.eqb c "E")%bool eqn:C.
    + assert (I : In (String c "") ["e"; "E"]).
      { apply orb_true_iff in C as [C|C]; apply Ascii.eqb_eq in C; subst; [now left|right; now left]. }
      destruct s as [|g t]; [discriminate|]. destruct (Ascii.eqb g "+" || Ascii.eqb g "-")%bool eqn:G.
      * assert (J : In (String g "") [""; "+"; "-"]).
        { apply orb_true_iff in G as [G|G]; apply Ascii.eqb_eq in G; subst; [right; now left|right; right; now left]. }
        destruct (get_digits1 t) as [[d u]|] eqn:E; [|discriminate]. apply get_digits1_split in E as [-> D].
        intros X; injection X as <- <-. split; [reflexivity|]. exact (exp _ _ d I J D).
      * destruct (get_digits1 (String g t)) as [[d u]|] eqn:E; [|discriminate]. apply get_digits1_split in E as [-> D].
        intros X; injection X as <- <-. split; [reflexivity|]. exact (exp _ "" d I (or_introl eq_refl) D).
    + intros E; injection E as <- <-. split; [reflexivity|constructor].
Qed.
Lemma get_integer_split : forall s f r, get_integer s = Some (f, r) -> s = f ++ r /\ int_part f.
Proof.
  intros [|c s] f r; cbn [get_integer]; [discriminate|]. destruct (Ascii.eqb_spec c "0") as [->|N].
  - intros E; injection E as <- <-. split; [reflexivity|constructor].
  - intros E. apply get_digits1_split in E as [E D]. split; [exact E|]. destruct D as [d D|d e D1 D2]; injection E as <- _.
    all: assert (B : byte 49 57 c)
      by (destruct D || destruct D1; split; [|assumption]; assert (N_of_ascii c <> 48%N)
            by (intros Z; apply N; rewrite <- (ascii_N_embedding c), Z; reflexivity); lia).
    + now constructor.
    + now constructor.
Qed.
Lemma get_number_split : forall s f r, get_number s = Some (f, r) -> s = f ++ r /\ number f.
Proof.
  intros s f r. unfold get_number.
  assert (X : exists m t, (match s with
                     | String c r => if Ascii.eqb c "-" then ("-", r) else ("", s)
                     | EmptyString => ("", "")
                     end) = (m, t) /\ s = m ++ t /\ (m = "" \/ m = "-")).
  { destruct s as [|c s]; [exists "", ""; auto|]. destruct (Ascii.eqb_spec c "-") as [->|_]; eauto 6. }
  destruct X as (m & t & -> & -> & M).
  destruct (get_integer t) as [[i s2]|] eqn:I; [|discriminate]. apply get_integer_split in I as [-> I].
  destruct (get_fraction s2) as [[g s3]|] eqn:F; [|discriminate]. apply get_fraction_split in F as [-> F].
  destruct (get_exponent s3) as [[e s4]|] eqn:E; [|discriminate]. apply get_exponent_split in E as [-> E].
  intros X; injection X as <- <-. split; [now rewrite !app_assoc_s|]. exists m, i, g, e. auto.
Qed.

Lemma stops_cases : forall s, stops s -> no_digit s /\
  match s with EmptyString => True | String c _ => Ascii.eqb c "." = false /\ (Ascii.eqb c "e" || Ascii.eqb c "E")%bool = false end.
Proof.
  intros [|c s]; [now split|]. cbn [stops In]. intros [<-|[<-|[<-|[<-|[<-|[<-|[<-|[]]]]]]]]; repeat split; reflexivity.
Qed.
Lemma exp_no_digit : forall e r, exp_part e -> stops r -> no_digit (e ++ r).
Proof.
  intros e r [|x g d X G D] S; [exact (proj1 (stops_cases r S))|]. destruct X as [<-|[<-|[]]]; reflexivity.
Qed.
Lemma frac_no_digit : forall f e r, frac_part f -> exp_part e -> stops r -> no_digit (f ++ e ++ r).
Proof. intros f e r [|d D] E S; [exact (exp_no_digit e r E S)|reflexivity]. Qed.
Lemma digits_first : forall d, digits d -> exists c x, d = String c x /\ byte 48 57 c.
Proof. intros d [c H|c x H _]; eauto. Qed.
Lemma get_exponent_take : forall e r, exp_part e -> stops r -> get_exponent (e ++ r) = Some (e, r).
Proof.
  intros e r [|x g d X G D] S.
  - apply stops_cases in S as [_ S]. destruct r as [|c r]; [reflexivity|]. destruct S as [_ S]. cbn. now rewrite S.
  - pose proof (get_digits1_take d r D (proj1 (stops_cases r S))) as T.
    assert (C : forall c, Ascii.eqb c "e" || Ascii.eqb c "E" = true -> get_exponent (String c (g ++ d ++ r)) = Some (String c (g ++ d), r)).
    { intros c C. cbn [get_exponent]. rewrite C. destruct G as [<-|[<-|[<-|[]]]]; cbn [append].
      - destruct (digits_first d D) as (a & y & -> & A). cbn [append] in *.
        replace (Ascii.eqb a "+" || Ascii.eqb a "-")%bool with false; [now rewrite T|].
        symmetry. apply orb_false_iff. split; apply Ascii.eqb_neq; intros ->; destruct A as [A _]; now apply A.
      - cbn. now rewrite T.
      - cbn. now rewrite T. }
    rewrite !app_assoc_s. destruct X as [<-|[<-|[]]]; cbn [append]; rewrite C by reflexivity; reflexivity.
Qed.
Lemma get_fraction_take : forall f e r, frac_part f -> exp_part e -> stops r ->
  get_fraction (f ++ e ++ r) = Some (f, e ++ r).
Proof.
  intros f e r [|d D] E S.
  - cbn [append]. destruct E as [|x g d X G D].
    + cbn [append]. apply stops_cases in S as [_ S]. destruct r as [|c r]; [reflexivity|]. cbn. now rewrite (proj1 S).
    + destruct X as [<-|[<-|[]]]; reflexivity.
  - rewrite app_assoc_s. cbn. now rewrite get_digits1_take by (auto using exp_no_digit).
Qed.
Lemma int_digits : forall i, int_part i -> exists c x, i = String c x /\ byte 48 57 c /\ digits i /\ (c = "0"%char -> x = "").
Proof.
  intros i [|c H|c d H D].
  - exists "0"%char, "". repeat split; try (vm_compute; discriminate). constructor. split; vm_compute; discriminate.
  - exists c, "". assert (B : byte 48 57 c) by (destruct H; split; lia). split; [reflexivity|]. split; [exact B|].
    split; [now constructor|auto].
  - exists c, d. assert (B : byte 48 57 c) by (destruct H; split; lia). split; [reflexivity|]. split; [exact B|].
    split; [now constructor|]. intros ->. destruct H as [H _]. exfalso. now apply H.
Qed.
Lemma get_integer_take : forall i r, int_part i -> no_digit r -> get_integer (i ++ r) = Some (i, r).
Proof.
  intros i r I N. destruct (int_digits i I) as (c & x & -> & B & D & Z). cbn [append get_integer].
  destruct (Ascii.eqb_spec c "0") as [->|_]; [now rewrite (Z eq_refl)|]. now apply (get_digits1_take (String c x) r).
Qed.
Lemma get_number_take : forall s r, number s -> stops r -> get_number (s ++ r) = Some (s, r).
Proof.
  intros s r (m & i & f & e & -> & M & I & F & E) S. unfold get_number.
  pose proof (frac_no_digit f e r F E S) as ND. pose proof (get_integer_take i (f ++ e ++ r) I ND) as GI.
  rewrite !app_assoc_s. destruct M as [->| ->].
  - destruct (int_digits i I) as (c & x & -> & B & _ & _). cbn [append] in *.
    destruct (Ascii.eqb_spec c "-") as [->|_]; [exfalso; destruct B as [B _]; now apply B|].
    rewrite GI, (get_fraction_take f e r F E S), (get_exponent_take e r E S). reflexivity.
  - cbn [append]. change (Ascii.eqb "-" "-") with true. cbv beta iota.
    rewrite GI, (get_fraction_take f e r F E S), (get_exponent_take e r E S). reflexivity.
Qed.

(** ** Characters by number *)
Lemma bits_of : forall lo hi c base, byte lo hi c -> (base <= lo)%N -> N_of_ascii c = (base + bits c base)%N.
Proof. intros lo hi c base [A _] B. unfold bits. lia. Qed.
Lemma ascii_of : forall c n, N_of_ascii c = n -> c = ascii_of_N n.
Proof. intros c n <-. now rewrite ascii_N_embedding. Qed.
Lemma bits_embed : forall base n, (base + n < 256)%N -> bits (ascii_of_N (base + n)) base = n.
Proof. intros base n H. unfold bits. rewrite N_ascii_embedding by exact H. lia. Qed.

Lemma rune_code : forall n, (n < 1114112)%N -> code_point (put_rune n) = n.
Proof.
  intros n H. unfold put_rune.
  destruct (N.ltb_spec n 128); [cbn; apply N_ascii_embedding; lia|].
  destruct (N.ltb_spec n 2048); [cbn [code_point]; rewrite !bits_embed by lia; lia|].
  destruct (N.ltb_spec n 65536); cbn [code_point]; rewrite !bits_embed by lia; lia.
Qed.
Ltac numbers :=
  repeat match goal with
  | H : byte _ _ ?c |- _ => let n := fresh "n" in let E := fresh "E" in
      destruct H; remember (N_of_ascii c) as n eqn:E; symmetry in E; apply ascii_of in E; subst c
  end.
Lemma code_rune : forall x, character x -> put_rune (code_point x) = x.
Proof.
  intros x C. destruct C; cbn [code_point]; unfold bits; numbers; rewrite ?N_ascii_embedding by lia; unfold put_rune.
  - now destruct (N.ltb_spec n 128); [|lia].
  - set (m := ((n0 - 192) * 64 + (n - 128))%N). 
    destruct (N.ltb_spec m 128); [subst m; lia|]. destruct (N.ltb_spec m 2048); [|subst m; lia].
    f_equal; [|f_equal]; f_equal; subst m; lia.
  - set (m := (((n1 - 224) * 64 + (n0 - 128)) * 64 + (n - 128))%N).
    destruct (N.ltb_spec m 128); [subst m; lia|]. destruct (N.ltb_spec m 2048); [subst m; lia|].
    destruct (N.ltb_spec m 65536); [|subst m; lia].
    f_equal; [|f_equal; [|f_equal]]; f_equal; subst m; lia.
  - set (m := (((n1 - 224) * 64 + (n0 - 128)) * 64 + (n - 128))%N).
    destruct (N.ltb_spec m 128); [subst m; lia|]. destruct (N.ltb_spec m 2048); [subst m; lia|].
    destruct (N.ltb_spec m 65536); [|subst m; lia].
    f_equal; [|f_equal; [|f_equal]]; f_equal; subst m; lia.
  - set (m := (((n1 - 224) * 64 + (n0 - 128)) * 64 + (n - 128))%N).
    destruct (N.ltb_spec m 128); [subst m; lia|]. destruct (N.ltb_spec m 2048); [subst m; lia|].
    destruct (N.ltb_spec m 65536); [|subst m; lia].
    f_equal; [|f_equal; [|f_equal]]; f_equal; subst m; lia.
  - set (m := (((n1 - 224) * 64 + (n0 - 128)) * 64 + (n - 128))%N).
    destruct (N.ltb_spec m 128); [subst m; lia|]. destruct (N.ltb_spec m 2048); [subst m; lia|].
    destruct (N.ltb_spec m 65536); [|subst m; lia].
    f_equal; [|f_equal; [|f_equal]]; f_equal; subst m; lia.
  - set (m := ((((n2 - 240) * 64 + (n1 - 128)) * 64 + (n0 - 128)) * 64 + (n - 128))%N).
    destruct (N.ltb_spec m 128); [subst m; lia|]. destruct (N.ltb_spec m 2048); [subst m; lia|].
    destruct (N.ltb_spec m 65536); [subst m; lia|].
    f_equal; [|f_equal; [|f_equal; [|f_equal]]]; f_equal; subst m; lia.
  - set (m := ((((n2 - 240) * 64 + (n1 - 128)) * 64 + (n0 - 128)) * 64 + (n - 128))%N).
    destruct (N.ltb_spec m 128); [subst m; lia|]. destruct (N.ltb_spec m 2048); [subst m; lia|].
    destruct (N.ltb_spec m 65536); [subst m; lia|].
    f_equal; [|f_equal; [|f_equal; [|f_equal]]]; f_equal; subst m; lia.
  - set (m := ((((n2 - 240) * 64 + (n1 - 128)) * 64 + (n0 - 128)) * 64 + (n - 128))%N).
    destruct (N.ltb_spec m 128); [subst m; lia|]. destruct (N.ltb_spec m 2048); [subst m; lia|].
    destruct (N.ltb_spec m 65536); [subst m; lia|].
    f_equal; [|f_equal; [|f_equal; [|f_equal]]]; f_equal; subst m; lia.
Qed.
