(** Strings and values: the reader and the grammar *)
From Coq Require Import String Ascii List NArith ZArith Bool Arith Lia ZifyN.
From Verif.Model Require Import GoString Util Octopus Json JsonText.
From Verif.Model Require Common Cli.
From Verif.Spec Require Import Text OctopusSpec JsonSpec JsonGrammar.
From Verif.Proofs Require Import StringLemmas OctopusProofs JsonProofs JsonTextProofs ReadUtf8 JsonGrammarProofs.
Import ListNotations.
Local Open Scope string_scope.

(** ** Four hexadecimal digits *)
Lemma hex_value_iff : forall c n, hex_value c = Some n <-> JsonGrammar.hex_digit c n.
Proof.
  intros c n. unfold hex_value. split.
  - destruct (byte_in 48 57 c) eqn:A; [|destruct (byte_in 97 102 c) eqn:B; [|destruct (byte_in 65 70 c) eqn:C]];
      intros E; inversion E; subst; split_bytes.
    + now apply hex_09.
    + replace (N_of_ascii c - 87)%N with (N_of_ascii c - 97 + 10)%N by (destruct B; lia). now apply hex_af.
    + replace (N_of_ascii c - 55)%N with (N_of_ascii c - 65 + 10)%N by (destruct C; lia). now apply hex_AF.
  - intros [d H|d H|d H]; bytes; [reflexivity| |]; f_equal; destruct H; lia.
Qed.
Lemma hex4_split : forall s n r, get_hex4 s = Some (n, r) -> exists h, s = h ++ r /\ hex4 h n.
Proof.
  intros s n r. destruct s as [|a [|b [|c [|d s]]]]; cbn [get_hex4]; try discriminate.
  destruct (hex_value a) as [x|] eqn:A; [|discriminate]. destruct (hex_value b) as [y|] eqn:B; [|discriminate].
  destruct (hex_value c) as [z|] eqn:C; [|discriminate]. destruct (hex_value d) as [u|] eqn:D; [|discriminate].
  apply hex_value_iff in A, B, C, D. intros E. injection E as <- <-.
  exists (String a (String b (String c (String d "")))). split; [reflexivity|].
  replace (((x * 16 + y) * 16 + z) * 16 + u)%N with (4096 * x + 256 * y + 16 * z + u)%N by lia. now constructor.
Qed.
Lemma hex4_take : forall h n r, hex4 h n -> get_hex4 (h ++ r) = Some (n, r).
Proof.
  intros h n r H. destruct H as [a b c d i j k l A B C D]. apply hex_value_iff in A, B, C, D. cbn [append get_hex4].
  rewrite A, B, C, D. do 2 f_equal. lia.
Qed.
Lemma hex4_bound : forall h n, hex4 h n -> (n < 65536)%N.
Proof. intros h n H. exact (hex4_small _ _ _ (hex4_take h n "" H)). Qed.
Lemma hex4_length : forall h n, hex4 h n -> String.length h = 4%nat.
Proof. intros h n []; reflexivity. Qed.
Lemma hex4_no_quote : forall h n, hex4 h n -> ~ char_in """" h.
Proof.
  intros h n [a b c d i j k l A B C D] Q.
  assert (X : forall e x, JsonGrammar.hex_digit e x -> """"%char <> e).
  { intros e x [f H|f H|f H] <-; destruct H as [H _]; now apply H. }
  cbn in Q. destruct Q as [Q|[Q|[Q|[Q|[]]]]]; [eapply (X a)|eapply (X b)|eapply (X c)|eapply (X d)]; eauto.
Qed.

(** ** Prefixes that reach behind a quote *)
Lemma app_meet : forall a b c d, a ++ b = c ++ d ->
  (exists e, c = a ++ e /\ b = e ++ d) \/ (exists e, e <> "" /\ a = c ++ e /\ d = e ++ b).
Proof.
  induction a as [|x a IH]; intros b c d E; cbn in E.
  - left. exists c. now split.
  - destruct c as [|y c].
    + right. exists (String x a). split; [discriminate|]. split; [reflexivity|now symmetry].
    + cbn in E. injection E as <- E. destruct (IH _ _ _ E) as [(e & -> & ->)|(e & N & -> & ->)].
      * left. now exists e.
      * right. exists e. repeat split; auto.
Qed.
Lemma char_in_mid : forall c a b, char_in c (a ++ String c b).
Proof. intros c a b. apply char_in_app. right. now left. Qed.

(** a character that is more than its first byte has no quote behind that byte *)
Lemma character_quote : forall a y, character (String a y) -> ~ char_in """" y.
Proof.
  intros a y C Q. inversion C; subst; cbn in Q;
    repeat match goal with H : _ \/ _ |- _ => destruct H | H : False |- _ => contradiction end; subst;
    match goal with H : byte _ _ """" |- _ => destruct H as [H _]; now apply H end.
Qed.

Lemma no_character_quote : forall a s r, (forall x t, character x -> String a s <> x ++ t) ->
  rune_size (String a (s ++ String """" r)) = 0%nat.
Proof.
  intros a s r H. destruct (rune_size_some (String a (s ++ String """" r))) as [E|(x & t & E & C & _)]; [discriminate|exact E|].
  exfalso. change (String a (s ++ String """" r)) with (String a s ++ String """" r) in E.
  destruct (app_meet _ _ _ _ E) as [(e & -> & E')|(e & N & E' & _)]; [|now apply (H x e)].
  destruct e as [|q e]; [apply (H (String a s ++ "") ""); [exact C|now rewrite !app_nil_r_s]|].
  cbn in E'. injection E' as <- _. apply (character_quote a (s ++ String """" e) C). apply char_in_mid.
Qed.
Lemma low_follows_quote : forall s r, low_follows (s ++ String """" r) -> low_follows s.
Proof.
  intros s r (h & n & t & E & H & L). pose proof (hex4_no_quote h n H) as Q.
  change ("\u" ++ h ++ t) with (("\u" ++ h) ++ t) in E.
  destruct (app_meet _ _ _ _ E) as [(e & E1 & E2)|(e & N & -> & _)].
  - destruct e as [|q e].
    + rewrite app_nil_r_s in E1. exists h, n, "". rewrite app_nil_r_s. auto.
    + cbn in E2. injection E2 as <- _. exfalso. assert (X : char_in """" ("\u" ++ h)) by (rewrite E1; apply char_in_mid).
      cbn in X. destruct X as [X|[X|X]]; [discriminate X|discriminate X|now apply Q].
  - exists h, n, e. rewrite app_assoc_s. auto.
Qed.

(** ** Escapes *)
Lemma replacement_is : replacement = replacement_character.
Proof. reflexivity. Qed.

Lemma surrogate_iff : forall n, surrogate n = true <-> high n \/ low n.
Proof.
  intros n. unfold surrogate, high, low. rewrite andb_true_iff, N.leb_le, N.ltb_lt. lia.
Qed.
Lemma pair_some : forall a b n, pair_rune a b = Some n <->
  high a /\ low b /\ n = ((a - 55296) * 1024 + (b - 56320) + 65536)%N.
Proof.
  intros a b n. unfold pair_rune, high, low.
  destruct (N.leb_spec 55296 a), (N.ltb_spec a 56320), (N.leb_spec 56320 b), (N.ltb_spec b 57344); cbn [andb];
    split; intros E; first [discriminate E|exfalso; lia|injection E as <-; lia|destruct E as (_ & _ & ->); reflexivity].
Qed.
Lemma pair_none : forall a b, pair_rune a b = None -> ~ (high a /\ low b).
Proof.
  intros a b E [H L]. assert (X : pair_rune a b = Some ((a - 55296) * 1024 + (b - 56320) + 65536)%N) by (apply pair_some; auto).
  congruence.
Qed.

(** what one step of the reader takes from the text in front, and how the grammar reads it *)
Definition stepped (s x r : string) : Prop :=
  exists t, s = t ++ r /\ (forall t' v, (exists q, r = t' ++ String """" q) -> chars t' v -> chars ("\" ++ t ++ t') (x ++ v)).

Lemma follows_app : forall s q, low_follows s -> low_follows (s ++ q).
Proof.
  intros s q (h & n & r & -> & H & L). exists h, n, (r ++ q). rewrite !app_assoc_s. auto.
Qed.

Lemma unicode_split : forall s x r, get_unicode s = Some (x, r) -> stepped (String "u" s) x r.
Proof.
  intros s x r. unfold get_unicode. destruct (get_hex4 s) as [[a r1]|] eqn:A; [|discriminate].
  pose proof (hex4_small _ _ _ A) as B. apply hex4_split in A as (h & -> & H).
  destruct (surrogate a) eqn:S.
  - apply surrogate_iff in S.
    assert (Half : (~ high a \/ ~ low_follows r1) -> Some (replacement, r1) = Some (x, r) -> stepped (String "u" (h ++ r1)) x r).
    { intros N E. injection E as <- <-. exists (String "u" h). split; [reflexivity|]. intros t' v (q & ->) C.
      change ("\" ++ String "u" h ++ t') with ("\u" ++ h ++ t').
      apply (ch_half h a); [exact H| |exact C]. destruct S as [S|S]; [left|now right]. split; [exact S|].
      destruct N as [N|N]; [contradiction|]. intros F. apply N. now apply follows_app. }
    assert (NF : forall r1, (forall t, r1 <> "\u" ++ t) -> ~ low_follows r1).
    { intros r0 N (h' & n & t & -> & _). now apply (N (h' ++ t)). }
    destruct r1 as [|y [|z r2]].
    + apply Half. right. apply NF. discriminate.
    + apply Half. right. apply NF. discriminate.
    + destruct (Ascii.eqb_spec y "\") as [->|N1]; cbn [andb]; [destruct (Ascii.eqb_spec z "u") as [->|N2]; cbn [andb]|].
      * destruct (get_hex4 r2) as [[b r3]|] eqn:A2; [|discriminate]. pose proof A2 as A3. apply hex4_split in A2 as (h2 & -> & H2).
        destruct (pair_rune a b) as [n|] eqn:P.
        -- apply pair_some in P as (HA & LB & ->). intros E. injection E as <- <-.
           set (n := ((a - 55296) * 1024 + (b - 56320) + 65536)%N) in *.
           assert (NB : (65536 <= n < 1114112)%N) by (unfold n, high, low in *; lia).
           exists (String "u" (h ++ "\u" ++ h2)). split; [cbn; rewrite !app_assoc_s; reflexivity|].
           intros t' v _ C.
           replace ("\" ++ String "u" (h ++ "\u" ++ h2) ++ t') with ("\u" ++ h ++ "\u" ++ h2 ++ t') by (cbn; rewrite !app_assoc_s; reflexivity).
           apply (ch_pair h a h2 b); auto; [apply rune_character; lia|apply rune_code; lia].
        -- apply Half. apply pair_none in P. destruct S as [S|S]; [|left; unfold high, low in *; lia]. right.
           intros (h3 & n3 & t3 & E3 & H3 & L3). cbn in E3. injection E3 as E3. rewrite E3 in A3.
           rewrite (hex4_take h3 n3 t3 H3) in A3. injection A3 as -> _. now apply P.
      * apply Half. right. apply NF. intros t E. cbn in E. injection E as E _. contradiction.
      * apply Half. right. apply NF. intros t E. cbn in E. injection E as E _. contradiction.
  - assert (N : ~ high a /\ ~ low a) by (split; intros X; assert (surrogate a = true) by (apply surrogate_iff; auto); congruence).
    destruct N as [N1 N2]. intros E. injection E as <- <-. exists (String "u" h). split; [reflexivity|]. intros t' v _ C.
    apply (ch_unicode h a); auto; [apply rune_character; unfold high, low in *; lia|apply rune_code; lia].
Qed.
Lemma escape_split : forall s x r, get_escape s = Some (x, r) -> stepped s x r.
Proof.
  intros [|c s] x r; [discriminate|]. cbn [get_escape].
  assert (Short : forall e y, In (e, y) short_escapes -> Some (y, s) = Some (x, r) -> stepped (e ++ s) x r).
  { intros e y I E. injection E as <- <-. exists e. split; [reflexivity|]. intros t' v _ C. now apply ch_short. }
  destruct (Ascii.eqb_spec c """") as [->|_]; [exact (Short """" """" ltac:(cbn; auto))|].
  destruct (Ascii.eqb_spec c "\") as [->|_]; [exact (Short "\" "\" ltac:(cbn; auto))|].
  destruct (Ascii.eqb_spec c "/") as [->|_]; [exact (Short "/" "/" ltac:(cbn; auto))|]. cbn [orb].
  destruct (Ascii.eqb_spec c "b") as [->|_]; [exact (Short "b" _ ltac:(cbn; tauto))|].
  destruct (Ascii.eqb_spec c "f") as [->|_]; [exact (Short "f" _ ltac:(cbn; tauto))|].
  destruct (Ascii.eqb_spec c "n") as [->|_]; [exact (Short "n" _ ltac:(cbn; tauto))|].
  destruct (Ascii.eqb_spec c "r") as [->|_]; [exact (Short "r" _ ltac:(cbn; tauto))|].
  destruct (Ascii.eqb_spec c "t") as [->|_]; [exact (Short "t" _ ltac:(cbn; tauto))|].
  destruct (Ascii.eqb_spec c "u") as [->|_]; [apply unicode_split|discriminate].
Qed.

Lemma chars_split : forall n s v r, get_chars n s = Some (v, r) -> exists t, s = t ++ String """" r /\ chars t v.
Proof.
  induction n as [|n IH]; intros [|c s] v r; cbn [get_chars]; try discriminate.
  destruct (Ascii.eqb_spec c """") as [->|NQ].
  { intros E; injection E as <- <-. exists "". split; [reflexivity|constructor]. }
  destruct (N.ltb_spec (N_of_ascii c) 32) as [|G]; [discriminate|].
  destruct (Ascii.eqb_spec c "\") as [->|NB].
  - destruct (get_escape s) as [[x r1]|] eqn:E; [|discriminate]. apply escape_split in E as (t & -> & K).
    destruct (get_chars n r1) as [[y r2]|] eqn:R; [|discriminate]. apply IH in R as (t' & -> & C).
    intros E; injection E as <- <-. exists ("\" ++ t ++ t'). split; [cbn; now rewrite app_assoc_s|]. apply K; eauto.
  - destruct (rune_size_some (String c s)) as [Z|(x & q & E & X & L)]; [discriminate| |].
    + rewrite Z. destruct (get_chars n s) as [[y r2]|] eqn:R; [|discriminate]. apply IH in R as (t' & -> & C).
      intros E; injection E as <- <-. exists (String c t'). split; [reflexivity|]. refine (ch_no_utf8 c t' y _ _ C).
      * destruct (N.le_gt_cases 128 (N_of_ascii c)) as [H|H]; [exact H|]. exfalso.
        assert (B : character (String c "")) by (constructor; split; lia).
        pose proof (rune_size_character _ (t' ++ String """" r2) B) as W. cbn [append] in W. rewrite Z in W. discriminate W.
      * intros x w X E. pose proof (rune_size_character x (w ++ String """" r2) X) as W. rewrite <- app_assoc_s, <- E in W.
        cbn [append] in W. rewrite Z in W. destruct X; discriminate W.
    + pose proof (take_app x q) as TK. pose proof (string_drop_app x q) as DR. rewrite <- E in TK, DR. rewrite L.
      destruct (String.length x) as [|k] eqn:K; [destruct X; discriminate K|]. rewrite TK, DR.
      destruct (get_chars n q) as [[y r2]|] eqn:R; [|discriminate]. apply IH in R as (t' & -> & C).
      intros F; injection F as <- <-. exists (x ++ t'). split; [now rewrite app_assoc_s, <- E|]. apply ch_plain; [exact X| |exact C].
      intros d ->. cbn in E. injection E as <- _. repeat split; auto.
Qed.

Lemma unicode_take : forall h n r, hex4 h n -> ~ high n -> ~ low n -> get_unicode (h ++ r) = Some (put_rune n, r).
Proof.
  intros h n r H A B. unfold get_unicode. rewrite (hex4_take h n r H). destruct (surrogate n) eqn:S; [|reflexivity].
  apply surrogate_iff in S. tauto.
Qed.
Lemma unicode_pair : forall h n h' n' r, hex4 h n -> high n -> hex4 h' n' -> low n' ->
  get_unicode (h ++ "\u" ++ h' ++ r) = Some (put_rune ((n - 55296) * 1024 + (n' - 56320) + 65536)%N, r).
Proof.
  intros h n h' n' r H A H' L. unfold get_unicode. rewrite (hex4_take h n _ H).
  replace (surrogate n) with true by (symmetry; apply surrogate_iff; now left).
  cbn [append]. change (Ascii.eqb "\" "\" && Ascii.eqb "u" "u")%bool with true. cbv iota.
  rewrite (hex4_take h' n' r H').
  replace (pair_rune n n') with (Some ((n - 55296) * 1024 + (n' - 56320) + 65536)%N) by (symmetry; apply pair_some; auto).
  reflexivity.
Qed.
(** the rest of a string that can be read does not start with a broken escape *)
Lemma half_take : forall h n r, hex4 h n -> high n /\ ~ low_follows r \/ low n ->
  (forall t, r = "\u" ++ t -> exists h' n' q, t = h' ++ q /\ hex4 h' n') -> get_unicode (h ++ r) = Some (replacement, r).
Proof.
  intros h n r H A W. unfold get_unicode. rewrite (hex4_take h n _ H).
  replace (surrogate n) with true by (symmetry; apply surrogate_iff; tauto).
  destruct r as [|x [|y r]]; [reflexivity..|].
  destruct (Ascii.eqb_spec x "\") as [->|_]; cbn [andb]; [|reflexivity]. destruct (Ascii.eqb_spec y "u") as [->|_]; [|reflexivity].
  destruct (W r eq_refl) as (h' & n' & q & -> & H'). rewrite (hex4_take h' n' q H').
  destruct (pair_rune n n') as [m|] eqn:P; [|reflexivity]. exfalso. apply pair_some in P as (P1 & P2 & _).
  destruct A as [[_ A]|A]; [|unfold high, low in *; lia]. apply A. exists h', n', q. auto.
Qed.
Lemma chars_escape : forall s v t q, chars s v -> s ++ String """" q = "\u" ++ t -> exists h n r, t = h ++ r /\ hex4 h n.
Proof.
  intros s v t q C E. destruct C as [|x s v X N C|e x s v I C|h n x s v H A B X K C|h n h' n' x s v H A H' A' X K C|h n s v H A C|a s v A N C].
  - cbn in E. discriminate E.
  - destruct (character_shape x X) as [(a & -> & B)|(_ & a & x' & -> & B)]; cbn in E; injection E as -> E.
    + exfalso. destruct (N "\"%char eq_refl) as (_ & _ & Z). now apply Z.
    + destruct B as [B _]. exfalso. now apply B.
  - unfold short_escapes in I. cbn in I. exfalso.
    repeat match goal with H : _ \/ _ |- _ => destruct H as [H|H] end; [..|contradiction]; injection I as <- <-; discriminate E.
  - cbn in E. injection E as <-. exists h, n, (s ++ String """" q). split; [now rewrite app_assoc_s|exact H].
  - cbn in E. injection E as <-. exists h, n, ("\u" ++ h' ++ s ++ String """" q). split; [now rewrite app_assoc_s; cbn; rewrite app_assoc_s|exact H].
  - cbn in E. injection E as <-. exists h, n, (s ++ String """" q). split; [now rewrite app_assoc_s|exact H].
  - cbn in E. injection E as -> _. exfalso. now apply A.
Qed.

Lemma chars_take : forall s v, chars s v -> forall n q, (String.length s < n)%nat ->
  get_chars n (s ++ String """" q) = Some (v, q).
Proof.
  induction 1 as [|x s v X N C IH|e x s v I C IH|h m x s v H A B X K C IH|h m h' m' x s v H A H' A' X K C IH|h m s v H A C IH|a s v A N C IH];
    intros n q L; (destruct n as [|n]; [lia|]).
  - reflexivity.
  - rewrite length_app_s in L. rewrite app_assoc_s.
    pose proof (rune_size_character x (s ++ String """" q) X) as R.
    pose proof (take_app x (s ++ String """" q)) as T. pose proof (string_drop_app x (s ++ String """" q)) as D.
    destruct (String.length x) as [|k] eqn:Z; [destruct X; discriminate Z|].
    destruct x as [|c x]; [discriminate Z|]. cbn [append] in *. cbn [get_chars].
    assert (W : Ascii.eqb c """" = false /\ N.ltb (N_of_ascii c) 32 = false /\ Ascii.eqb c "\" = false).
    { destruct (character_shape _ X) as [(a & E & _)|(_ & a & x' & E & B)]; injection E as -> ->.
      - destruct (N a eq_refl) as (N1 & N2 & N3). split; [now apply Ascii.eqb_neq|]. split; [now apply N.ltb_ge|now apply Ascii.eqb_neq].
      - destruct B as [B _]. split; [|split]; [apply Ascii.eqb_neq|apply N.ltb_ge; lia|apply Ascii.eqb_neq]; intros ->; now apply B. }
    destruct W as (-> & -> & ->). rewrite R, T, D, IH by lia. reflexivity.
  - rewrite !length_app_s in L. cbn in L.
    assert (G : get_escape (e ++ s ++ String """" q) = Some (x, s ++ String """" q)).
    { unfold short_escapes in I. cbn in I. repeat match goal with H : _ \/ _ |- _ => destruct H as [H|H] end; [..|contradiction];
        injection I as <- <-; reflexivity. }
    rewrite !app_assoc_s. cbn [append get_chars]. cbn [Ascii.eqb Bool.eqb]. change (N.ltb (N_of_ascii "\") 32) with false. cbv iota.
    rewrite G, IH by lia. reflexivity.
  - rewrite !length_app_s in L. cbn in L. rewrite !app_assoc_s. cbn [append get_chars]. cbn [Ascii.eqb Bool.eqb].
    change (N.ltb (N_of_ascii "\") 32) with false. cbv iota. cbn [get_escape Ascii.eqb Bool.eqb orb]. cbv iota.
    rewrite (unicode_take h m _ H A B), IH by lia. now rewrite <- K, code_rune.
  - rewrite !length_app_s in L. cbn in L. rewrite !app_assoc_s. cbn [append get_chars]. cbn [Ascii.eqb Bool.eqb].
    change (N.ltb (N_of_ascii "\") 32) with false. cbv iota. cbn [get_escape Ascii.eqb Bool.eqb orb]. cbv iota.
    pose proof (unicode_pair h m h' m' (s ++ String """" q) H A H' A') as U. cbn [append] in U. rewrite U, IH by lia.
    now rewrite <- K, code_rune.
  - rewrite !length_app_s in L. cbn in L. rewrite !app_assoc_s. cbn [append get_chars]. cbn [Ascii.eqb Bool.eqb].
    change (N.ltb (N_of_ascii "\") 32) with false. cbv iota. cbn [get_escape Ascii.eqb Bool.eqb orb]. cbv iota.
    rewrite (half_take h m _ H), IH; [reflexivity|lia| |].
    + destruct A as [[A1 A2]|A]; [left|now right]. split; [exact A1|]. intros F. apply A2. now apply low_follows_quote in F.
    + intros t E. destruct (chars_escape s v t q C E) as (h' & n' & r & Z). eauto.
  - cbn in L. cbn [append get_chars].
    assert (W : Ascii.eqb a """" = false /\ N.ltb (N_of_ascii a) 32 = false /\ Ascii.eqb a "\" = false).
    { split; [|split]; [apply Ascii.eqb_neq|apply N.ltb_ge; lia|apply Ascii.eqb_neq]; intros ->; now apply A. }
    destruct W as (-> & -> & ->). rewrite (no_character_quote a s q N). rewrite IH by lia. reflexivity.
Qed.
Ltac flat := repeat first [rewrite app_assoc_s | progress (cbn [append])]; reflexivity.
Ltac lengths L := repeat first [rewrite length_app_s in L | progress (cbn [String.length append] in L)].

(** ** Values: what has been read is described by the grammar *)
Lemma word_split : forall w s r, get_word w s = Some r -> s = w ++ r.
Proof.
  intros w s r. unfold get_word, has_prefix. destruct (String.prefix w s) eqn:P; [|discriminate].
  apply prefix_iff in P as (q & ->). rewrite string_drop_app. intros E; now injection E as ->.
Qed.

Lemma value_split : forall n,
  (forall s j r, get_value n s = Some (j, r) -> exists a t, blanks a /\ s = a ++ t ++ r /\ value t j) /\
  (forall s l r, get_elements n s = Some (l, r) -> exists t, s = t ++ String "]" r /\ elements t l) /\
  (forall s l r, get_members n s = Some (l, r) -> exists t, s = t ++ String "}" r /\ members t l).
Proof.
  induction n as [|n (IV & IE & IM)]; [split; [|split]; discriminate|]. split; [|split].
  - intros s j r. cbn [get_value]. destruct (skip_split s) as (a & A & E). destruct (skip_space s) as [|c t]; [discriminate|]. subst s.
    assert (K : forall u, String c t = u ++ r -> value u j -> exists a0 t0, blanks a0 /\ a ++ String c t = a0 ++ t0 ++ r /\ value t0 j)
      by (intros u -> V; exists a, u; auto).
    destruct (Ascii.eqb_spec c """") as [->|_].
    { destruct (get_chars (String.length t) t) as [[x r']|] eqn:G; [|discriminate]. apply chars_split in G as (u & -> & C).
      intros E; injection E as <- <-. apply (K ("""" ++ u ++ """")); [cbn; now rewrite app_assoc_s|now apply v_string]. }
    destruct (Ascii.eqb_spec c "[") as [->|_].
    { destruct (next_is "]" t) as [r'|] eqn:G.
      - apply next_split in G as (b & B & ->). intros E; injection E as <- <-.
        apply (K ("[" ++ b ++ "]")); [cbn; now rewrite app_assoc_s|now apply v_empty_array].
      - destruct (get_elements n t) as [[l r']|] eqn:L; [|discriminate]. apply IE in L as (u & -> & L).
        intros E; injection E as <- <-. apply (K ("[" ++ u ++ "]")); [cbn; now rewrite app_assoc_s|now apply v_array]. }
    destruct (Ascii.eqb_spec c "{") as [->|_].
    { destruct (next_is "}" t) as [r'|] eqn:G.
      - apply next_split in G as (b & B & ->). intros E; injection E as <- <-.
        apply (K ("{" ++ b ++ "}")); [cbn; now rewrite app_assoc_s|now apply v_empty_object].
      - destruct (get_members n t) as [[l r']|] eqn:L; [|discriminate]. apply IM in L as (u & -> & L).
        intros E; injection E as <- <-. apply (K ("{" ++ u ++ "}")); [cbn; now rewrite app_assoc_s|now apply v_object]. }
    destruct (Ascii.eqb c "n").
    { destruct (get_word "null" (String c t)) as [r'|] eqn:G; [|discriminate]. apply word_split in G.
      intros E; injection E as <- <-. apply (K _ G). constructor. }
    destruct (Ascii.eqb c "t").
    { destruct (get_word "true" (String c t)) as [r'|] eqn:G; [|discriminate]. apply word_split in G.
      intros E; injection E as <- <-. apply (K _ G). constructor. }
    destruct (Ascii.eqb c "f").
    { destruct (get_word "false" (String c t)) as [r'|] eqn:G; [|discriminate]. apply word_split in G.
      intros E; injection E as <- <-. apply (K _ G). constructor. }
    destruct (get_number (String c t)) as [[m r']|] eqn:G; [|discriminate]. apply get_number_split in G as [G N].
    intros E; injection E as <- <-. apply (K _ G). now constructor.
  - intros s l r. cbn [get_elements]. destruct (get_value n s) as [[j r1]|] eqn:V; [|discriminate].
    apply IV in V as (a & t & A & -> & V). destruct (next_is "," r1) as [r2|] eqn:G.
    + apply next_split in G as (b & B & ->). destruct (get_elements n r2) as [[l' r3]|] eqn:L; [|discriminate].
      apply IE in L as (u & -> & L). intros E; injection E as <- <-.
      exists (a ++ t ++ b ++ "," ++ u). split; [|now apply e_more]. rewrite !app_assoc_s. cbn [append]. reflexivity.
    + destruct (next_is "]" r1) as [r2|] eqn:G2; [|discriminate]. apply next_split in G2 as (b & B & ->).
      intros E; injection E as <- <-. exists (a ++ t ++ b). split; [|now apply e_last]. now rewrite !app_assoc_s.
  - intros s l r. cbn [get_members]. destruct (next_is """" s) as [s1|] eqn:Q; [|discriminate]. apply next_split in Q as (a & A & ->).
    destruct (get_chars (String.length s1) s1) as [[k s2]|] eqn:KC; [|discriminate]. apply chars_split in KC as (kt & -> & KC).
    destruct (next_is ":" s2) as [s3|] eqn:C; [|discriminate]. apply next_split in C as (b & B & ->).
    destruct (get_value n s3) as [[j r1]|] eqn:V; [|discriminate].
    apply IV in V as (c & t & C & -> & V). destruct (next_is "," r1) as [r2|] eqn:G.
    + apply next_split in G as (d & D & ->). destruct (get_members n r2) as [[l' r3]|] eqn:L; [|discriminate].
      apply IM in L as (u & -> & L). intros E; injection E as <- <-.
      exists (a ++ """" ++ kt ++ """" ++ b ++ ":" ++ c ++ t ++ d ++ "," ++ u). split; [|now apply m_more].
      flat.
    + destruct (next_is "}" r1) as [r2|] eqn:G2; [|discriminate]. apply next_split in G2 as (d & D & ->).
      intros E; injection E as <- <-. exists (a ++ """" ++ kt ++ """" ++ b ++ ":" ++ c ++ t ++ d). split; [|now apply m_last].
      flat.
Qed.

(** ** Values: what the grammar describes is read *)
Scheme value_mut := Induction for value Sort Prop
  with elements_mut := Induction for elements Sort Prop
  with members_mut := Induction for members Sort Prop.
Combined Scheme value_all from value_mut, elements_mut, members_mut.

(** how values begin *)
Definition begins (s : string) : Prop :=
  exists c t, s = String c t /\ json_space c = false /\ c <> "]"%char /\ c <> "}"%char.
Lemma number_first : forall s, number s -> exists c t, s = String c t /\ (c = "-"%char \/ byte 48 57 c).
Proof.
  intros s (m & i & f & e & -> & M & I & _). destruct (int_digits i I) as (c & x & -> & B & _).
  destruct M as [->| ->]; cbn [append]; eauto.
Qed.
Lemma digit_other : forall c, c = "-"%char \/ byte 48 57 c ->
  json_space c = false /\ Ascii.eqb c """" = false /\ Ascii.eqb c "[" = false /\ Ascii.eqb c "{" = false /\
  Ascii.eqb c "n" = false /\ Ascii.eqb c "t" = false /\ Ascii.eqb c "f" = false /\ c <> "]"%char /\ c <> "}"%char.
Proof.
  intros c H. assert (X : c = "-"%char \/ is_digit c = true) by (destruct H as [H|H]; [now left|right; now apply digit_byte]).
  clear H. destruct c as [[] [] [] [] [] [] [] []]; destruct X as [X|X]; try discriminate X; repeat split; try reflexivity; discriminate.
Qed.
Lemma value_begins : forall s j, value s j -> begins s.
Proof.
  intros s j V. destruct V; try (eexists _, _; cbn [append]; split; [reflexivity|]; split; [reflexivity|split; discriminate]).
  destruct (number_first s H) as (c & t & -> & D). destruct (digit_other c D) as (A & _ & _ & _ & _ & _ & _ & B & C).
  exists c, t. auto.
Qed.
Lemma value_skip : forall s j a r, value s j -> blanks a -> skip_space (a ++ s ++ r) = s ++ r.
Proof.
  intros s j a r V A. rewrite skip_blanks by assumption. destruct (value_begins s j V) as (c & t & -> & S & _).
  apply skip_self. exact S.
Qed.
Lemma blanks_stop : forall b r, blanks b -> stops r -> stops (b ++ r).
Proof.
  intros [|c b] r B R; [exact R|]. apply blanks_cons in B as [B _]. apply space_iff in B. cbn in *. tauto.
Qed.
Lemma word_take : forall w r, get_word w (w ++ r) = Some r.
Proof. intros w r. unfold get_word, has_prefix. now rewrite prefix_app, string_drop_app. Qed.
Lemma comma_stops : forall r, stops (String "," r). Proof. intros r. cbn. tauto. Qed.
Lemma bracket_stops : forall r, stops (String "]" r). Proof. intros r. cbn. tauto. Qed.
Lemma brace_stops : forall r, stops (String "}" r). Proof. intros r. cbn. tauto. Qed.

Definition taken (t : string) (j : json) : Prop := forall n a r, blanks a -> stops r -> (String.length t <= n)%nat ->
  get_value n (a ++ t ++ r) = Some (j, r).
Definition elements_taken (t : string) (l : list json) : Prop := (exists a u, blanks a /\ t = a ++ u /\ begins u) /\
  forall n r, (String.length t < n)%nat -> get_elements n (t ++ String "]" r) = Some (l, r).
Definition members_taken (t : string) (l : list (string * json)) : Prop := (exists a u, blanks a /\ t = a ++ u /\ begins u) /\
  forall n r, (String.length t < n)%nat -> get_members n (t ++ String "}" r) = Some (l, r).

Lemma begins_not_next : forall a u r, blanks a -> begins u ->
  next_is "]" ((a ++ u) ++ r) = None /\ next_is "}" ((a ++ u) ++ r) = None.
Proof.
  intros a u r A (c & t & -> & S & N1 & N2). rewrite app_assoc_s. cbn [append].
  split; apply next_other; auto; congruence.
Qed.
Lemma begins_app : forall u r, begins u -> begins (u ++ r).
Proof. intros u r (c & t & -> & H). exists c, (t ++ r). split; [reflexivity|exact H]. Qed.
Lemma quote_begins : forall s, begins ("""" ++ s).
Proof. intros s. exists """"%char, s. split; [reflexivity|]. split; [reflexivity|split; discriminate]. Qed.

Lemma value_taken : (forall t j, value t j -> taken t j) /\ (forall t l, elements t l -> elements_taken t l) /\
  (forall t l, members t l -> members_taken t l).
Proof.
  apply value_all.
  - intros n a r A S L. destruct n as [|n]; [cbn in L; lia|]. cbn [get_value]. rewrite (value_skip _ _ _ _ v_null A).
    pose proof (word_take "null" r) as W. cbn [append] in *. cbn [Ascii.eqb Bool.eqb]. now rewrite W.
  - intros n a r A S L. destruct n as [|n]; [cbn in L; lia|]. cbn [get_value]. rewrite (value_skip _ _ _ _ v_true A).
    pose proof (word_take "true" r) as W. cbn [append] in *. cbn [Ascii.eqb Bool.eqb]. now rewrite W.
  - intros n a r A S L. destruct n as [|n]; [cbn in L; lia|]. cbn [get_value]. rewrite (value_skip _ _ _ _ v_false A).
    pose proof (word_take "false" r) as W. cbn [append] in *. cbn [Ascii.eqb Bool.eqb]. now rewrite W.
  - intros s N n a r A S L. destruct (number_first s N) as (c & t & E & D). destruct n as [|n]; [rewrite E in L; cbn in L; lia|].
    cbn [get_value]. rewrite (value_skip _ _ _ _ (v_number _ N) A). pose proof (get_number_take s r N S) as G. rewrite E in *. cbn [append] in *.
    destruct (digit_other c D) as (_ & -> & -> & -> & -> & -> & -> & _). now rewrite G.
  - intros s v C n a r A S L. destruct n as [|n]; [cbn in L; lia|]. cbn [get_value]. rewrite (value_skip _ _ _ _ (v_string _ _ C) A).
    rewrite !app_assoc_s. cbn [append]. cbn [Ascii.eqb Bool.eqb]. rewrite (chars_take s v C); [reflexivity|].
    rewrite length_app_s. cbn. lia.
  - intros b B n a r A S L. destruct n as [|n]; [cbn in L; lia|]. cbn [get_value]. rewrite (value_skip _ _ _ _ (v_empty_array _ B) A).
    rewrite !app_assoc_s. cbn [append]. cbn [Ascii.eqb Bool.eqb]. now rewrite next_take.
  - intros s l E [(b & u & B & EU & G) IH] n a r A S L. destruct n as [|n]; [cbn in L; lia|]. cbn [get_value].
    rewrite (value_skip _ _ _ _ (v_array _ _ E) A). rewrite !app_assoc_s. cbn [append]. cbn [Ascii.eqb Bool.eqb].
    destruct (begins_not_next b u (String "]" r) B G) as [X _]. rewrite <- EU in X. rewrite X, IH; [reflexivity|].
    rewrite !length_app_s in L. cbn in L. lia.
  - intros b B n a r A S L. destruct n as [|n]; [cbn in L; lia|]. cbn [get_value]. rewrite (value_skip _ _ _ _ (v_empty_object _ B) A).
    rewrite !app_assoc_s. cbn [append]. cbn [Ascii.eqb Bool.eqb]. now rewrite next_take.
  - intros s l E [(b & u & B & EU & G) IH] n a r A S L. destruct n as [|n]; [cbn in L; lia|]. cbn [get_value].
    rewrite (value_skip _ _ _ _ (v_object _ _ E) A). rewrite !app_assoc_s. cbn [append]. cbn [Ascii.eqb Bool.eqb].
    destruct (begins_not_next b u (String "}" r) B G) as [_ X]. rewrite <- EU in X. rewrite X, IH; [reflexivity|].
    rewrite !length_app_s in L. cbn in L. lia.
  - intros a s b j A V IH B. split.
    { exists a, (s ++ b). split; [exact A|]. split; [reflexivity|]. eapply begins_app, value_begins, V. }
    intros n r L. destruct n as [|n]; [lia|]. rewrite !length_app_s in L. cbn [get_elements]. rewrite !app_assoc_s.
    rewrite IH; [|exact A|apply blanks_stop; [exact B|apply bracket_stops]|lia].
    rewrite (next_other "," b "]" r B eq_refl) by discriminate. now rewrite (next_take "]" b r B eq_refl).
  - intros a s b j s' l A V IH B E [_ IE]. split.
    { exists a, (s ++ b ++ "," ++ s'). split; [exact A|]. split; [reflexivity|]. eapply begins_app, value_begins, V. }
    intros n r L. destruct n as [|n]; [lia|]. rewrite !length_app_s in L. cbn [String.length append] in L. cbn [get_elements]. rewrite !app_assoc_s. cbn [append].
    rewrite IH; [|exact A|apply blanks_stop; [exact B|apply comma_stops]|lia].
    rewrite (next_take "," b _ B eq_refl). rewrite IE by lia. reflexivity.
  - intros a k kv b c s d j A K B C V IH D. split.
    { exists a, ("""" ++ k ++ """" ++ b ++ ":" ++ c ++ s ++ d). split; [exact A|]. split; [reflexivity|]. apply quote_begins. }
    intros n r L. destruct n as [|n]; [lia|]. rewrite !length_app_s in L. cbn [String.length append] in L.
    lengths L. cbn [get_members].
    replace ((a ++ """" ++ k ++ """" ++ b ++ ":" ++ c ++ s ++ d) ++ String "}" r)
      with (a ++ String """" (k ++ String """" (b ++ String ":" (c ++ s ++ d ++ String "}" r))))
      by flat.
    rewrite (next_take """" a _ A eq_refl). rewrite (chars_take k kv K) by (rewrite length_app_s; cbn; lia).
    rewrite (next_take ":" b _ B eq_refl). rewrite IH; [|exact C|apply blanks_stop; [exact D|apply brace_stops]|lia].
    rewrite (next_other "," d "}" r D eq_refl) by discriminate. now rewrite (next_take "}" d r D eq_refl).
  - intros a k kv b c s d j s' l A K B C V IH D E [_ IE]. split.
    { exists a, ("""" ++ k ++ """" ++ b ++ ":" ++ c ++ s ++ d ++ "," ++ s'). split; [exact A|]. split; [reflexivity|]. apply quote_begins. }
    intros n r L. destruct n as [|n]; [lia|]. rewrite !length_app_s in L. cbn [String.length append] in L.
    lengths L. cbn [get_members].
    replace ((a ++ """" ++ k ++ """" ++ b ++ ":" ++ c ++ s ++ d ++ "," ++ s') ++ String "}" r)
      with (a ++ String """" (k ++ String """" (b ++ String ":" (c ++ s ++ d ++ String "," (s' ++ String "}" r)))))
      by flat.
    rewrite (next_take """" a _ A eq_refl). rewrite (chars_take k kv K) by (rewrite length_app_s; cbn; lia).
    rewrite (next_take ":" b _ B eq_refl). rewrite IH; [|exact C|apply blanks_stop; [exact D|apply comma_stops]|lia].
    rewrite (next_take "," d _ D eq_refl). rewrite IE by lia. reflexivity.
Qed.

(** ** Documents *)
Lemma blanks_skipped : forall s, blanks s <-> skip_space s = "".
Proof.
  intros s; split.
  - intros B. rewrite <- (app_nil_r_s s). now rewrite skip_blanks.
  - intros E. destruct (skip_split s) as (a & A & ->). rewrite E, app_nil_r_s. exact A.
Qed.
Lemma max_list_iff : forall l n, (fold_right N.max 0 l <= n)%N <-> (forall x, In x l -> (x <= n)%N).
Proof.
  intros l n; split; [|apply max_list]. induction l as [|y l IH]; intros H x I; [destruct I|]. cbn in H.
  apply N.max_lub_iff in H as [H1 H2]. destruct I as [<-|I]; auto.
Qed.
Lemma nesting_within : forall j n, (nesting j <= n)%N <-> within n j.
Proof.
  induction j as [|b|lit|s|l IH|l IH] using json_nested_ind; intros n;
    try (split; intros _; [apply w_flat; discriminate|cbn; lia]).
  - cbn [nesting]. split.
    + intros H. assert (E : n = N.succ (N.pred n)) by lia. rewrite E. apply w_array. intros j I. apply IH; [exact I|].
      assert (H' : (fold_right N.max 0 (map nesting l) <= N.pred n)%N) by lia. rewrite max_list_iff in H'. apply H'. now apply in_map.
    + intros H. inversion H as [m j A B|m l' A|]; subst; [exfalso; now apply (A l)|].
      apply -> N.succ_le_mono. apply max_list. intros x I. apply in_map_iff in I as (j & <- & I). now apply IH, A.
  - cbn [nesting]. split.
    + intros H. assert (E : n = N.succ (N.pred n)) by lia. rewrite E. apply w_object. intros k j I. apply (IH k); [exact I|].
      set (f := fun kv : string * json => let '(_, v) := kv in nesting v) in *.
      assert (H' : (fold_right N.max 0 (map f l) <= N.pred n)%N) by lia. rewrite max_list_iff in H'. apply H'.
      exact (in_map f l (k, j) I).
    + intros H. inversion H as [m j A B| |m l' A]; subst; [exfalso; now apply (B l)|].
      apply -> N.succ_le_mono. apply max_list. intros x I. apply in_map_iff in I as ([k j] & <- & I). apply (IH k _ I). now apply (A k).
Qed.
Lemma read_iff : forall text j, read_text text = Some j <-> json_text text j /\ within 10000 j.
Proof.
  intros text j. unfold read_text, json_text. rewrite <- (nesting_within j 10000). split.
  - destruct (get_value (String.length text) text) as [[j' r]|] eqn:V; [|discriminate].
    destruct (skip_space r) eqn:S; [|discriminate]. destruct (N.leb_spec (nesting j') max_nesting) as [D|]; [|discriminate].
    intros E; injection E as <-. apply value_split in V as (a & t & A & -> & V). split; [|exact D].
    exists a, t, r. split; [reflexivity|]. split; [exact A|]. split; [exact V|]. now apply blanks_skipped.
  - intros [(a & s & b & -> & A & V & B) D]. rewrite (proj1 value_taken s j V); [|exact A| |rewrite !length_app_s; lia].
    + apply blanks_skipped in B. rewrite B. apply N.leb_le in D. unfold max_nesting. now rewrite D.
    + rewrite <- (app_nil_r_s b). now apply blanks_stop.
Qed.

Lemma not_json_fails : forall w fs name text, fs name = Some text -> (forall j, json_text text j -> ~ within 10000 j) ->
  Cli.load_file w fs name = Cli.LoadFailed.
Proof.
  intros w fs name text F N. unfold Cli.load_file. destruct (Common.load_schema_accepts name); [|reflexivity]. rewrite F.
  destruct (read_text text) as [j|] eqn:R; [|reflexivity]. exfalso. apply read_iff in R as [R W]. exact (N j R W).
Qed.
Lemma written_json : forall sortf s text, to_text sortf s = Some text -> exists j, json_text text j /\ within 10000 j.
Proof.
  intros sortf s text H. unfold to_text, to_json in H. destruct (normalize sortf s) as [s' [e|]]; [discriminate|].
  assert (E : text = put_value "" (enc_schema s')) by (cbn [option_map] in H; congruence). subst text.
  eexists. eapply read_iff, text_read; [apply enc_schema_nat|apply enc_schema_nesting].
Qed.

(** ** A text with every kind of escape *)
Definition ex_json_text : string :=
  " { ""a\""\\\/\b\f\n\r\t"" : [ 0, -1.5e+3 , true,null ] ,""\u0041\u00E9é\ud83d\ude00\ud83dx"":"""" } ".
Definition ex_json_value : json :=
  JObj [(("a""\/" ++ String "008" (String "012" (String "010" (String "013" (String "009" ""))))),
         JArr [JNum "0"; JNum "-1.5e+3"; JBool true; JNull]);
        ("A" ++ String "195" (String "169" (String "195" (String "169" (String "240" (String "159" (String "152" (String "128"
           (String "239" (String "191" (String "189" "x")))))))))),
         JStr "")].
Lemma ex_json_ok : json_text ex_json_text ex_json_value /\ within 10000 ex_json_value.
Proof. apply read_iff. vm_compute. reflexivity. Qed.
Lemma ex_not_json : forall text, In text [""; "{} x"; "[1,]"; "{""a"":1,}"; "01"; "1."; ".5"; "+1"; "1e"; "'a'"; """\x"""; "[1 2]"; "nul";
    "{a:1}"; "[1"; """a"] -> forall j, ~ json_text text j.
Proof.
  intros text I j (a & s & b & -> & A & V & B).
  assert (G : get_value (String.length (a ++ s ++ b)) (a ++ s ++ b) = Some (j, b)).
  { apply (proj1 value_taken s j V); [exact A| |rewrite !length_app_s; lia]. rewrite <- (app_nil_r_s b). now apply blanks_stop. }
  apply blanks_skipped in B. revert G. generalize dependent (a ++ s ++ b). clear - B. intros text I G. cbn [In] in I.
  repeat (destruct I as [<-|I]; [vm_compute in G; first [discriminate G|injection G as _ <-; discriminate B]|]). destruct I.
Qed.
