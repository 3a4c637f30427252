(** Writing a JSON document and reading it back *)
From Coq Require Import String Ascii List NArith Bool Arith Lia Sorting.Permutation Decimal DecimalFacts DecimalN DecimalString.
From Verif.Model Require Import GoString Util Octopus Json JsonText.
From Verif.Spec Require Import Text OctopusSpec JsonSpec.
From Verif.Proofs Require Import StringLemmas OctopusProofs JsonProofs.
Import ListNotations.
Local Open Scope string_scope.

(** ** Runes *)
Lemma byte_true : forall lo hi c, byte lo hi c -> byte_in lo hi c = true.
Proof.
  intros lo hi c [A B]. unfold byte_in. apply andb_true_intro. split; now apply N.leb_le.
Qed.
Lemma byte_false : forall lo hi lo' hi' c, byte lo hi c -> (N.ltb hi lo' || N.ltb hi' lo = true)%bool ->
  byte_in lo' hi' c = false.
Proof.
  intros lo hi lo' hi' c [A B] D. unfold byte_in. apply andb_false_iff.
  apply orb_true_iff in D as [D|D]; apply N.ltb_lt in D; [left|right]; apply N.leb_gt; lia.
Qed.

Ltac bytes :=
  repeat match goal with
  | H : byte ?lo ?hi ?c |- context [byte_in ?lo' ?hi' ?c] =>
      first [rewrite (byte_true lo' hi' c) by exact H
            |rewrite (byte_false lo hi lo' hi' c H) by reflexivity
            |replace (byte_in lo' hi' c) with true
               by (symmetry; apply byte_true; destruct H; split; lia)]
  end.

Lemma rune_size_character : forall x r, character x -> rune_size (x ++ r) = String.length x.
Proof.
  intros x r H. destruct H; cbn [append]; unfold rune_size; bytes; reflexivity.
Qed.

Lemma byte_in_byte : forall lo hi c, byte_in lo hi c = true -> byte lo hi c.
Proof.
  intros lo hi c H. unfold byte_in in H. apply andb_true_iff in H as [A B].
  apply N.leb_le in A. apply N.leb_le in B. now split.
Qed.

Ltac split_bytes :=
  repeat match goal with
  | H : (_ && _)%bool = true |- _ => apply andb_true_iff in H as [? ?]
  | H : byte_in _ _ _ = true |- _ => apply byte_in_byte in H
  end.

(** a positive size is the size of a character *)
Lemma rune_size_some : forall s, s <> "" ->
  rune_size s = 0%nat \/ exists x r, s = x ++ r /\ character x /\ rune_size s = String.length x.
Proof.
  intros s NE.
  assert (X : rune_size s = 0%nat \/ exists x r, s = x ++ r /\ character x).
  { unfold rune_size. destruct s as [|a s]; [congruence|].
    destruct (byte_in 0 127 a) eqn:A1; [right; exists (String a ""), s; split; [reflexivity|]; constructor; now apply byte_in_byte|].
    destruct s as [|b s]; [now left|].
    destruct (byte_in 194 223 a) eqn:A2.
    { destruct (byte_in 128 191 b) eqn:B; [|now left]. right. exists (String a (String b "")), s.
      split; [reflexivity|]. split_bytes. now constructor. }
    destruct s as [|c s]; [now left|].
    destruct (byte_in 224 224 a) eqn:A3.
    { destruct (byte_in 160 191 b && byte_in 128 191 c)%bool eqn:B; [|now left].
      right. exists (String a (String b (String c ""))), s. split; [reflexivity|]. split_bytes. now apply ch_3a. }
    destruct (byte_in 225 236 a || byte_in 238 239 a)%bool eqn:A4.
    { destruct (byte_in 128 191 b && byte_in 128 191 c)%bool eqn:B; [|now left].
      right. exists (String a (String b (String c ""))), s. split; [reflexivity|].
      apply orb_true_iff in A4 as [A4|A4]; split_bytes; [now apply ch_3b|now apply ch_3d]. }
    destruct (byte_in 237 237 a) eqn:A5.
    { destruct (byte_in 128 159 b && byte_in 128 191 c)%bool eqn:B; [|now left].
      right. exists (String a (String b (String c ""))), s. split; [reflexivity|]. split_bytes. now apply ch_3c. }
    destruct s as [|d s]; [now left|].
    destruct (byte_in 240 240 a) eqn:A6.
    { destruct (byte_in 144 191 b && (byte_in 128 191 c && byte_in 128 191 d))%bool eqn:B; [|now left].
      right. exists (String a (String b (String c (String d "")))), s. split; [reflexivity|]. split_bytes. now apply ch_4a. }
    destruct (byte_in 241 243 a) eqn:A7.
    { destruct (byte_in 128 191 b && (byte_in 128 191 c && byte_in 128 191 d))%bool eqn:B; [|now left].
      right. exists (String a (String b (String c (String d "")))), s. split; [reflexivity|]. split_bytes. now apply ch_4b. }
    destruct (byte_in 244 244 a) eqn:A8; [|now left].
    destruct (byte_in 128 143 b && (byte_in 128 191 c && byte_in 128 191 d))%bool eqn:B; [|now left].
    right. exists (String a (String b (String c (String d "")))), s. split; [reflexivity|]. split_bytes. now apply ch_4c. }
  destruct X as [X|(x & r & -> & C)]; [now left|right].
  exists x, r. repeat split; auto. now apply rune_size_character.
Qed.

Lemma character_shape : forall x, character x ->
  (exists a, x = String a "" /\ byte 0 127 a) \/
  (2 <= String.length x)%nat /\ (exists a x', x = String a x' /\ byte 194 244 a).
Proof.
  intros x C. destruct C; [left; eauto|right..];
    (split; [cbn; lia|]); eexists _, _; (split; [reflexivity|]);
    match goal with H : byte _ _ ?a |- byte _ _ ?a => destruct H; split; lia end.
Qed.

(** every byte that starts no character becomes U+FFFD *)
Fixpoint clean_chars (n : nat) (s : string) : string :=
  match n, s with
  | S n', String c s' =>
      match rune_size s with
      | O => replacement ++ clean_chars n' s'
      | k => string_take k s ++ clean_chars n' (string_drop k s)
      end
  | _, _ => ""
  end.
Definition clean (s : string) : string := clean_chars (String.length s) s.

Lemma take_app : forall a b, string_take (String.length a) (a ++ b) = a.
Proof. induction a as [|c a IH]; intros b; cbn; [reflexivity|]. now rewrite IH. Qed.

(** ** Strings *)
Definition get_step (n : nat) (x s : string) : option (string * string) :=
  match get_chars n s with Some (y, r) => Some (x ++ y, r) | None => None end.

Lemma get_ascii : forall c n s, byte 0 127 c ->
  get_chars (S n) (put_ascii c ++ s) = get_step n (String c "") s.
Proof.
  intros c n s [_ H].
  destruct c as [[] [] [] [] [] [] [] []]; try (exfalso; apply H; reflexivity); reflexivity.
Qed.

Lemma get_rune : forall x n s, character x -> (2 <= String.length x)%nat ->
  get_chars (S n) ((if String.eqb x line_separator then "\u2028"
                    else if String.eqb x paragraph_separator then "\u2029" else x) ++ s)
  = get_step n x s.
Proof.
  intros x n s C L. destruct (character_shape x C) as [(a & -> & _)|(_ & a & x' & -> & Ha)]; [cbn in L; lia|].
  destruct (String.eqb_spec (String a x') line_separator) as [->|_]; [reflexivity|].
  destruct (String.eqb_spec (String a x') paragraph_separator) as [->|_]; [reflexivity|].
  pose proof (rune_size_character _ s C) as R.
  cbn [append get_chars].
  assert (Q : Ascii.eqb a """" = false /\ Ascii.eqb a "\" = false /\ N.ltb (N_of_ascii a) 32 = false).
  { destruct Ha as [Ha _]. repeat split; [apply Ascii.eqb_neq|apply Ascii.eqb_neq|apply N.ltb_ge; lia];
      intros ->; apply Ha; reflexivity. }
  destruct Q as (-> & -> & ->).
  change (String a (x' ++ s)) with (String a x' ++ s).
  rewrite R. pose proof (take_app (String a x') s) as T. pose proof (string_drop_app (String a x') s) as D.
  destruct (String.length (String a x')) as [|k]; [lia|]. rewrite T, D. reflexivity.
Qed.

Lemma get_bad : forall n s, get_chars (S n) ("\ufffd" ++ s) = get_step n replacement s.
Proof. reflexivity. Qed.

(** one step of writing: what is written, what it reads as, what is left *)
Lemma chars_step : forall s m, s <> "" -> (String.length s <= m)%nat ->
  exists x y r m', (m' < m)%nat /\ (String.length r < String.length s)%nat /\ (String.length r <= m')%nat /\
    put_chars m s = y ++ put_chars m' r /\ clean_chars m s = x ++ clean_chars m' r /\
    (1 <= String.length y)%nat /\
    (forall n t, get_chars (S n) (y ++ t) = get_step n x t) /\
    ((character x /\ s = x ++ r) \/
     (exists a, s = String a r /\ x = replacement /\ forall x r, character x -> s <> x ++ r)).
Proof.
  intros s m NE L. destruct m as [|m]; [destruct s; [congruence|cbn in L; lia]|].
  destruct (rune_size_some s NE) as [Z|(x & r & -> & C & Z)].
  - destruct s as [|a s]; [congruence|]. exists replacement, "\ufffd", s, m.
    split; [lia|]. split; [cbn; lia|]. split; [cbn in L; lia|].
    split; [cbn [put_chars]; now rewrite Z|]. split; [cbn [clean_chars]; now rewrite Z|].
    split; [cbn; lia|]. split; [intros; apply get_bad|]. right. exists a. repeat split; auto.
    intros x r C E. rewrite E, (rune_size_character _ _ C) in Z. destruct C; discriminate Z.
  - pose proof (character_shape x C) as [(a & -> & Ha)|(L2 & a & x' & Ex & Ha)].
    + exists (String a ""), (put_ascii a), r, m.
      split; [lia|]. split; [cbn; lia|]. split; [cbn in L; lia|].
      split; [cbn [put_chars append]; change (String a r) with (String a "" ++ r); rewrite Z; reflexivity|].
      split; [cbn [clean_chars append]; change (String a r) with (String a "" ++ r); rewrite Z; cbn; destruct r; reflexivity|].
      split; [unfold put_ascii; repeat (destruct (_ : bool); [cbn; lia|]); cbn; lia|].
      split; [intros; now apply get_ascii|]. now left.
    + exists x. eexists. exists r, m. rewrite length_app_s in *.
      split; [lia|]. split; [lia|]. split; [lia|].
      pose proof (take_app x r) as T. pose proof (string_drop_app x r) as D.
      split; [|split; [|split; [|split; [intros n t; exact (get_rune x n t C L2)|now left]]]].
      * subst x. cbn [put_chars append]. change (String a (x' ++ r)) with (String a x' ++ r).
        rewrite Z. destruct (String.length (String a x')) as [|[|k]]; [lia|lia|]. rewrite T, D. reflexivity.
      * subst x. cbn [clean_chars append]. change (String a (x' ++ r)) with (String a x' ++ r).
        rewrite Z. destruct (String.length (String a x')) as [|k]; [lia|]. rewrite T, D. reflexivity.
      * destruct (String.eqb _ _); [cbn; lia|]. destruct (String.eqb _ _); cbn; lia.
Qed.

Lemma clean_chars_more : forall k s, (String.length s <= k)%nat -> forall m m',
  (String.length s <= m)%nat -> (String.length s <= m')%nat -> clean_chars m s = clean_chars m' s.
Proof.
  induction k as [|k IH]; intros s L m m' M M'.
  - destruct s; [|cbn in L; lia]. now destruct m, m'.
  - destruct (string_dec s "") as [->|NE]; [now destruct m, m'|].
    destruct m as [|m]; [destruct s; [congruence|cbn in M; lia]|].
    destruct m' as [|m']; [destruct s; [congruence|cbn in M'; lia]|].
    destruct (rune_size_some s NE) as [Z|(x & r & -> & C & Z)].
    + destruct s as [|a s]; [congruence|]. cbn [clean_chars]. rewrite Z. f_equal. cbn in *. apply IH; lia.
    + pose proof (take_app x r) as T. pose proof (string_drop_app x r) as D. rewrite length_app_s in *.
      assert (P : (1 <= String.length x)%nat) by (destruct C; cbn; lia).
      assert (U : forall m, clean_chars (S m) (x ++ r) = x ++ clean_chars m r).
      { intros q. destruct x as [|a x]; [cbn in P; lia|]. cbn [clean_chars append].
        change (String a (x ++ r)) with (String a x ++ r). rewrite Z.
        destruct (String.length (String a x)); [lia|]. now rewrite T, D. }
      rewrite !U. f_equal. apply IH; lia.
Qed.

Lemma clean_cleaned_chars : forall k s, (String.length s <= k)%nat -> forall m, (String.length s <= m)%nat ->
  cleaned s (clean_chars m s).
Proof.
  induction k as [|k IH]; intros s L m M.
  - destruct s; [|cbn in L; lia]. destruct m; constructor.
  - destruct (string_dec s "") as [->|NE]; [destruct m; constructor|].
    destruct (chars_step s m NE M) as (x & y & r & m' & _ & Lr & Lm & _ & E & _ & _ & [[C Es]|(a & Es & Ex & B)]).
    + rewrite E, Es. apply cl_char; [exact C|]. apply IH; lia.
    + rewrite E, Ex, Es. apply (cl_byte a r).
      * intros x0 r0 C0. rewrite <- Es. now apply B.
      * apply IH; lia.
Qed.
Lemma clean_cleaned : forall s, cleaned s (clean s).
Proof. intros s. now apply (clean_cleaned_chars (String.length s)). Qed.

Lemma character_nonempty : forall x, character x -> x <> "".
Proof. intros x C. destruct C; discriminate. Qed.

Lemma clean_app : forall x s, character x -> clean (x ++ s) = x ++ clean s.
Proof.
  intros x s C. assert (Z := rune_size_character x s C). unfold clean.
  pose proof (take_app x s) as T. pose proof (string_drop_app x s) as D. pose proof (character_nonempty x C) as NE.
  destruct x as [|a x]; [congruence|]. cbn [append String.length clean_chars].
  change (String a (x ++ s)) with (String a x ++ s). rewrite Z. cbn [String.length] in *.
  change (String a (x ++ s)) with (String a x ++ s). rewrite T, D. cbn [append].
  rewrite (clean_chars_more (String.length s) s (le_n _) _ (String.length s)); rewrite ?length_app_s; [reflexivity|lia|lia].
Qed.

Lemma clean_utf8 : forall s, utf8 s -> clean s = s.
Proof.
  induction 1 as [|x s C U IH]; [reflexivity|]. now rewrite clean_app, IH.
Qed.
Lemma clean_is_utf8_chars : forall k s, (String.length s <= k)%nat -> forall m, (String.length s <= m)%nat ->
  utf8 (clean_chars m s).
Proof.
  induction k as [|k IH]; intros s L m M.
  - destruct s; [|cbn in L; lia]. destruct m; constructor.
  - destruct (string_dec s "") as [->|NE]; [destruct m; constructor|].
    destruct (chars_step s m NE M) as (x & y & r & m' & _ & Lr & Lm & _ & E & _ & _ & [[C Es]|(a & Es & Ex & B)]).
    + rewrite E. constructor; [exact C|]. apply IH; lia.
    + rewrite E, Ex. constructor; [|apply IH; lia]. apply ch_3d; split; vm_compute; discriminate.
Qed.
Lemma clean_is_utf8 : forall s, utf8 (clean s).
Proof. intros s. now apply (clean_is_utf8_chars (String.length s)). Qed.
Lemma clean_empty : forall s, clean s = "" <-> s = "".
Proof.
  intros s. split; [|now intros ->]. intros H. destruct (string_dec s "") as [E|NE]; [exact E|exfalso].
  unfold clean in H.
  destruct (chars_step s _ NE (le_n _)) as (x & y & r & m' & _ & Lr & Lm & _ & E & _ & _ & [[C Es]|(a & Es & Ex & B)]).
  - rewrite E in H. apply character_nonempty in C. destruct x; [congruence|discriminate].
  - rewrite E, Ex in H. discriminate.
Qed.

Lemma chars_read : forall k s, (String.length s <= k)%nat -> forall m n rest,
  (String.length s <= m)%nat -> (String.length (put_chars m s) < n)%nat ->
  get_chars n (put_chars m s ++ String """" rest) = Some (clean_chars m s, rest).
Proof.
  induction k as [|k IH]; intros s L m n rest Lm Ln.
  - destruct s; [|cbn in L; lia]. destruct n; [lia|]. destruct m; reflexivity.
  - destruct (string_dec s "") as [->|NE]; [destruct n; [lia|]; destruct m; reflexivity|].
    destruct (chars_step s m NE Lm) as (x & y & r & m' & M & Lr & Lrm & E & Ec & Y & G & _).
    rewrite E in Ln |- *. rewrite Ec. rewrite length_app_s in Ln. destruct n as [|n]; [lia|].
    rewrite app_assoc_s, G. unfold get_step. rewrite IH; [reflexivity|lia|exact Lrm|lia].
Qed.

Lemma string_read : forall s rest,
  exists t, put_string s = String """" t /\
  get_chars (String.length (t ++ rest)) (t ++ rest) = Some (clean s, rest).
Proof.
  intros s rest. exists (put_chars (String.length s) s ++ """"). split; [reflexivity|].
  rewrite app_assoc_s. cbn [append].
  apply (chars_read (String.length s)); auto. rewrite length_app_s. cbn. lia.
Qed.

(** ** Numbers *)
Lemma digits_read : forall d rest, string_forallb is_digit d = true ->
  match rest with String c _ => is_digit c = false | EmptyString => True end ->
  get_digits (d ++ rest) = (d, rest).
Proof.
  induction d as [|c d IH]; intros rest D R; cbn [append get_digits].
  - destruct rest as [|c r]; [reflexivity|]. cbn. now rewrite R.
  - cbn in D. apply andb_true_iff in D as [D1 D2]. rewrite D1. rewrite IH by assumption. reflexivity.
Qed.

(** what may follow a value in the texts written: the end, a comma or a line break *)
Definition ends (s : string) : Prop :=
  match s with EmptyString => True | String c _ => c = ","%char \/ c = "010"%char end.

Lemma to_uint_no_zero : forall n, (n <> 0)%N -> match N.to_uint n with Decimal.D0 _ | Decimal.Nil => False | _ => True end.
Proof.
  intros n H. pose proof (DecimalN.Unsigned.of_to n) as O. pose proof (DecimalN.Unsigned.to_of (N.to_uint n)) as T.
  rewrite O in T. destruct (N.to_uint n) as [|u|u|u|u|u|u|u|u|u|u] eqn:E; try exact I; [discriminate T|].
  unfold Decimal.unorm in T. destruct (Decimal.nzhead (Decimal.D0 u)) eqn:Z; try discriminate T.
  - injection T as ->. apply H. rewrite <- O. reflexivity.
  - exact (DecimalFacts.nzhead_nonzero _ _ Z).
Qed.

Lemma number_read : forall n rest, ends rest -> get_number (itoa n ++ rest) = Some (itoa n, rest).
Proof.
  intros n rest R.
  assert (Tail : forall i, match get_fraction rest with
      | None => None
      | Some (f, s3) => match get_exponent s3 with
                        | None => None | Some (e, s4) => Some ("" ++ i ++ f ++ e, s4) end
      end = Some (i, rest)).
  { intros i. destruct rest as [|c r]; cbn; [now rewrite app_nil_r_s|].
    destruct R as [-> | ->]; cbn; now rewrite app_nil_r_s. }
  destruct (N.eq_dec n 0) as [->|NZ].
  - cbn [itoa]. change (itoa 0) with "0". unfold get_number. cbn [append]. cbn [Ascii.eqb Bool.eqb].
    unfold get_integer. cbn [Ascii.eqb Bool.eqb]. exact (Tail "0").
  - pose proof (itoa_digits n) as D. pose proof (itoa_nonempty n) as E.
    assert (Z : exists c d, itoa n = String c d /\ c <> "0"%char /\ c <> "-"%char).
    { unfold itoa. pose proof (to_uint_no_zero n NZ) as U. unfold NilZero.string_of_uint.
      destruct (N.to_uint n); try contradiction; cbn; eexists _, _; (split; [reflexivity|]); split; discriminate. }
    destruct Z as (c & d & Ed & C0 & C1). unfold get_number. rewrite Ed. cbn [append].
    apply Ascii.eqb_neq in C0. apply Ascii.eqb_neq in C1. rewrite C1. unfold get_integer. rewrite C0.
    unfold get_digits1. change (String c (d ++ rest)) with (String c d ++ rest). rewrite <- Ed.
    rewrite digits_read; [|exact D|].
    + rewrite Ed. exact (Tail (String c d)).
    + destruct rest as [|x r]; [exact I|]. destruct R as [-> | ->]; reflexivity.
Qed.

(** ** White space *)
Fixpoint blank (s : string) : bool :=
  match s with EmptyString => true | String c s' => Ascii.eqb c " " && blank s' end.
Lemma blank_skip : forall i s, blank i = true -> skip_space (i ++ s) = skip_space s.
Proof.
  induction i as [|c i IH]; intros s B; [reflexivity|]. cbn in B. apply andb_true_iff in B as [E B].
  apply Ascii.eqb_eq in E. subst c. cbn [append skip_space]. change (json_space " ") with true. now apply IH.
Qed.
Lemma blank_app : forall a b, blank a = true -> blank b = true -> blank (a ++ b) = true.
Proof.
  induction a as [|c a IH]; intros b A B; [exact B|]. cbn in *. apply andb_true_iff in A as [-> A]. cbn. now apply IH.
Qed.
Lemma skip_sep : forall i s, blank i = true -> skip_space (newline_s ++ i ++ s) = skip_space s.
Proof. intros i s B. cbn. now apply blank_skip. Qed.

(** ** Values *)
Section JsonInd.
  Variable P : json -> Prop.
  Hypothesis Hnull : P JNull.
  Hypothesis Hbool : forall b, P (JBool b).
  Hypothesis Hnum : forall l, P (JNum l).
  Hypothesis Hstr : forall s, P (JStr s).
  Hypothesis Harr : forall l, (forall j, In j l -> P j) -> P (JArr l).
  Hypothesis Hobj : forall l, (forall k j, In (k, j) l -> P j) -> P (JObj l).
  Fixpoint json_nested_ind (j : json) : P j.
  Proof.
    destruct j as [|b|l|s|l|l]; [exact Hnull|apply Hbool|apply Hnum|apply Hstr| |].
    - apply Harr. induction l as [|x l IH]; [intros j []|]. pose proof (json_nested_ind x) as Px.
      intros j [E|I]; [now rewrite <- E|now apply IH].
    - apply Hobj. induction l as [|[k x] l IH]; [intros k' j []|]. pose proof (json_nested_ind x) as Px.
      intros k' j [E|I]; [|now apply (IH k')]. assert (Ej : x = j) by congruence. now rewrite <- Ej.
  Defined.
End JsonInd.

(** the trees that are written: the numbers are natural numbers *)
Inductive json_nat : json -> Prop :=
| jn_null : json_nat JNull
| jn_bool b : json_nat (JBool b)
| jn_num n : json_nat (JNum (itoa n))
| jn_str s : json_nat (JStr s)
| jn_arr l : (forall j, In j l -> json_nat j) -> json_nat (JArr l)
| jn_obj l : (forall k j, In (k, j) l -> json_nat j) -> json_nat (JObj l).

Fixpoint clean_json (j : json) : json :=
  match j with
  | JStr s => JStr (clean s)
  | JArr l => JArr (map clean_json l)
  | JObj l => JObj (map (fun kv => let '(k, v) := kv in (clean k, clean_json v)) l)
  | _ => j
  end.
Definition clean_member (kv : string * json) : string * json := let '(k, v) := kv in (clean k, clean_json v).

(** steps a reader needs *)
Fixpoint need (j : json) : nat :=
  match j with
  | JArr l => S (list_sum (map (fun x => S (need x)) l))
  | JObj l => S (list_sum (map (fun kv => let '(_, x) := kv in S (need x)) l))
  | _ => 1
  end.

(** the first character of a value *)
Definition starts (s : string) : Prop :=
  match s with
  | String c _ => json_space c = false /\ c <> "]"%char /\ c <> "}"%char
  | EmptyString => False
  end.

Lemma digit_start : forall c, is_digit c = true -> json_space c = false /\ c <> "]"%char /\ c <> "}"%char.
Proof.
  intros c H. destruct c as [[] [] [] [] [] [] [] []]; try discriminate H; repeat split; discriminate.
Qed.

Lemma value_starts : forall ind j rest, json_nat j -> starts (put_value ind j ++ rest).
Proof.
  intros ind j rest H. destruct H as [|b|n|s|l|l]; try (cbn; repeat split; discriminate).
  - destruct b; cbn; repeat split; discriminate.
  - cbn [put_value]. pose proof (itoa_digits n) as D. pose proof (itoa_nonempty n) as E.
    destruct (itoa n) as [|c d]; [congruence|]. cbn in D. apply andb_true_iff in D as [D _].
    cbn. now apply digit_start.
  - destruct l; cbn; repeat split; discriminate.
  - destruct l; cbn; repeat split; discriminate.
Qed.

Lemma starts_skip : forall s, starts s -> skip_space s = s.
Proof. intros [|c s] H; [contradiction|]. destruct H as [H _]. cbn. now rewrite H. Qed.

Lemma next_sep : forall i s c, blank i = true -> starts s -> (c = "]" \/ c = "}")%char ->
  next_is c (newline_s ++ i ++ s) = None.
Proof.
  intros i s c B S C. unfold next_is. rewrite skip_sep, starts_skip by assumption.
  destruct s as [|d s]; [contradiction|]. destruct S as (_ & S1 & S2).
  destruct (Ascii.eqb_spec c d) as [->|_]; [|reflexivity]. destruct C; congruence.
Qed.

(** reading one value *)
Definition value_reads (j : json) : Prop := forall ind n rest, blank ind = true -> (need j <= n)%nat -> ends rest ->
  get_value n (put_value ind j ++ rest) = Some (clean_json j, rest).

Lemma value_reads_sep : forall j ind i n rest, value_reads j -> json_nat j -> blank ind = true -> blank i = true ->
  (need j <= n)%nat -> ends rest ->
  get_value n (newline_s ++ i ++ put_value ind j ++ rest) = Some (clean_json j, rest).
Proof.
  intros j ind i n rest R U B Bi N E. rewrite <- (R ind n rest B N E).
  destruct n; [reflexivity|]. cbn [get_value]. now rewrite skip_sep.
Qed.

Lemma join_cons2 : forall sep x y l, join sep (x :: y :: l) = x ++ sep ++ join sep (y :: l).
Proof. reflexivity. Qed.

Lemma ends_comma : forall s, ends (String "," s).
Proof. intros s. now left. Qed.
Lemma ends_newline : forall s, ends (newline_s ++ s).
Proof. intros s. now right. Qed.

Lemma next_comma : forall s, next_is "," (String "," s) = Some s.
Proof. reflexivity. Qed.
Lemma next_close : forall c i s, blank i = true -> (c = "]" \/ c = "}")%char ->
  next_is "," (newline_s ++ i ++ String c s) = None /\ next_is c (newline_s ++ i ++ String c s) = Some s.
Proof.
  intros c i s B C. unfold next_is. rewrite skip_sep by assumption.
  destruct C as [-> | ->]; cbn; auto.
Qed.

Lemma elements_read : forall ind ind' l n rest, blank ind = true -> blank ind' = true -> l <> [] ->
  (forall j, In j l -> json_nat j /\ value_reads j) ->
  (list_sum (map (fun x => S (need x)) l) <= n)%nat ->
  get_elements n (newline_s ++ ind' ++ join ("," ++ newline_s ++ ind') (map (put_value ind') l)
                  ++ newline_s ++ ind ++ String "]" rest) = Some (map clean_json l, rest).
Proof.
  intros ind ind' l n rest B B'. revert n. induction l as [|j l IH]; intros n NE H N; [congruence|].
  destruct (H j) as [U R]; [now left|]. cbn [map list_sum fold_right] in N.
  change (fold_right Nat.add 0 (map (fun x => S (need x)) l))%nat with (list_sum (map (fun x => S (need x)) l)) in N.
  destruct n as [|n]; [lia|]. cbn [get_elements].
  destruct l as [|j2 l].
  - cbn [map join]. rewrite value_reads_sep; [|assumption..|lia|apply ends_newline].
    destruct (next_close "]" ind rest B (or_introl eq_refl)) as [-> ->]. reflexivity.
  - cbn [map]. rewrite join_cons2. rewrite !app_assoc_s.
    rewrite value_reads_sep; [|assumption..|lia|apply ends_comma].
    cbn [append]. rewrite next_comma. rewrite ?app_assoc_s.
    change (put_value ind' j2 :: map (put_value ind') l) with (map (put_value ind') (j2 :: l)).
    rewrite IH; [reflexivity|discriminate|intros; apply H; now right|lia].
Qed.

Definition put_member (ind : string) (kv : string * json) : string :=
  let '(k, v) := kv in put_string k ++ ": " ++ put_value ind v.

Lemma value_reads_colon : forall j ind n rest, value_reads j -> json_nat j -> blank ind = true ->
  (need j <= n)%nat -> ends rest ->
  get_value n (" " ++ put_value ind j ++ rest) = Some (clean_json j, rest).
Proof.
  intros j ind n rest R U B N E. rewrite <- (R ind n rest B N E). destruct n; [reflexivity|]. reflexivity.
Qed.

Lemma next_quote : forall i s, blank i = true -> next_is """" (newline_s ++ i ++ String """" s) = Some s.
Proof. intros i s B. unfold next_is. rewrite skip_sep by assumption. reflexivity. Qed.

Lemma members_read : forall ind ind' l n rest, blank ind = true -> blank ind' = true -> l <> [] ->
  (forall k j, In (k, j) l -> json_nat j /\ value_reads j) ->
  (list_sum (map (fun kv => let '(_, x) := kv in S (need x)) l) <= n)%nat ->
  get_members n (newline_s ++ ind' ++ join ("," ++ newline_s ++ ind') (map (put_member ind') l)
                 ++ newline_s ++ ind ++ String "}" rest) = Some (map clean_member l, rest).
Proof.
  intros ind ind' l n rest B B'. revert n. induction l as [|[k j] l IH]; intros n NE H N; [congruence|].
  destruct (H k j) as [U R]; [now left|]. cbn [map list_sum fold_right] in N.
  change (fold_right Nat.add 0 (map (fun kv => let '(_, x) := kv in S (need x)) l))%nat
    with (list_sum (map (fun kv : string * json => let '(_, x) := kv in S (need x)) l)) in N.
  destruct n as [|n]; [lia|]. cbn [get_members].
  destruct l as [|kv2 l].
  - cbn [map join put_member]. rewrite !app_assoc_s.
    destruct (string_read k (": " ++ put_value ind' j ++ newline_s ++ ind ++ String "}" rest)) as (t & Et & G).
    rewrite Et. cbn [append]. change (String """" (t ++ ?x)) with (String """" (t ++ x)).
    rewrite next_quote by assumption. cbn [append] in G. rewrite G.
    change (next_is ":" (String ":" ?x)) with (Some x). cbv iota.
    change (String " " ?x) with (" " ++ x). rewrite value_reads_colon; [|assumption..|lia|apply ends_newline].
    destruct (next_close "}" ind rest B (or_intror eq_refl)) as [-> ->]. reflexivity.
  - cbn [map]. rewrite join_cons2. cbn [put_member]. rewrite !app_assoc_s.
    set (tail := newline_s ++ ind' ++ join _ _ ++ _).
    destruct (string_read k (": " ++ put_value ind' j ++ "," ++ tail)) as (t & Et & G).
    rewrite Et. cbn [append]. rewrite next_quote by assumption. cbn [append] in G. rewrite G.
    change (next_is ":" (String ":" ?x)) with (Some x). cbv iota.
    change (String " " ?x) with (" " ++ x). rewrite value_reads_colon; [|assumption..|lia|apply ends_comma].
    rewrite next_comma. unfold tail.
    change (put_member ind' kv2 :: map (put_member ind') l) with (map (put_member ind') (kv2 :: l)).
    rewrite IH; [reflexivity|discriminate| |lia]. intros k' j' I. exact (H k' j' (or_intror I)).
Qed.

Lemma word_read : forall w rest, get_word w (w ++ rest) = Some rest.
Proof. intros w rest. unfold get_word, has_prefix. now rewrite prefix_app, string_drop_app. Qed.

Lemma elements_start : forall ind j l rest, json_nat j ->
  starts (join ("," ++ newline_s ++ ind) (map (put_value ind) (j :: l)) ++ rest).
Proof.
  intros ind j l rest U. destruct l as [|x l]; [now apply value_starts|].
  cbn [map]. rewrite join_cons2. rewrite app_assoc_s. now apply value_starts.
Qed.
Lemma members_start : forall ind kv l rest,
  starts (join ("," ++ newline_s ++ ind) (map (put_member ind) (kv :: l)) ++ rest).
Proof.
  intros ind [k j] l rest. destruct l as [|x l]; cbn; repeat split; discriminate.
Qed.

Lemma put_array : forall ind j l rest,
  put_value ind (JArr (j :: l)) ++ rest =
  String "[" (newline_s ++ (ind ++ "  ") ++
    join ("," ++ newline_s ++ (ind ++ "  ")) (map (put_value (ind ++ "  ")) (j :: l))
    ++ newline_s ++ ind ++ String "]" rest).
Proof. intros. cbn [put_value]. rewrite !app_assoc_s. reflexivity. Qed.
Lemma put_object : forall ind kv l rest,
  put_value ind (JObj (kv :: l)) ++ rest =
  String "{" (newline_s ++ (ind ++ "  ") ++
    join ("," ++ newline_s ++ (ind ++ "  ")) (map (put_member (ind ++ "  ")) (kv :: l))
    ++ newline_s ++ ind ++ String "}" rest).
Proof. intros. cbn [put_value]. rewrite !app_assoc_s. reflexivity. Qed.

Lemma all_values_read : forall j, json_nat j -> value_reads j.
Proof.
  induction j as [|b|lit|s|l IH|l IH] using json_nested_ind; intros U ind n rest B N E;
    (destruct n as [|n]; [cbn in N; lia|]).
  - change (get_value (S n) (put_value ind JNull ++ rest))
      with (option_map (fun r' => (JNull, r')) (get_word "null" ("null" ++ rest))).
    now rewrite word_read.
  - destruct b.
    + change (get_value (S n) (put_value ind (JBool true) ++ rest))
        with (option_map (fun r' => (JBool true, r')) (get_word "true" ("true" ++ rest))).
      now rewrite word_read.
    + change (get_value (S n) (put_value ind (JBool false) ++ rest))
        with (option_map (fun r' => (JBool false, r')) (get_word "false" ("false" ++ rest))).
      now rewrite word_read.
  - inversion U as [| |m Em| | |]; subst. cbn [put_value get_value].
    pose proof (value_starts "" (JNum (itoa m)) rest U) as S. cbn [put_value] in S.
    rewrite starts_skip by exact S.
    pose proof (itoa_digits m) as D. pose proof (itoa_nonempty m) as NE.
    pose proof (number_read m rest E) as R.
    destruct (itoa m) as [|c d]; [congruence|]. cbn [append] in *. cbn in D. apply andb_true_iff in D as [D _].
    assert (X : forall k, is_digit k = false -> Ascii.eqb c k = false).
    { intros k K. apply Ascii.eqb_neq. intros ->. congruence. }
    rewrite !X by reflexivity. rewrite R. reflexivity.
  - inversion U; subst. cbn [put_value].
    destruct (string_read s rest) as (t & Et & G). rewrite Et. cbn [append get_value].
    change (skip_space (String """" ?x)) with (String """" x). cbv iota. cbn [Ascii.eqb Bool.eqb].
    rewrite G. reflexivity.
  - inversion U as [| | | |? H|]; subst. destruct l as [|j l]; [reflexivity|].
    rewrite put_array. cbn [get_value].
    change (skip_space (String "[" ?x)) with (String "[" x). cbv iota. cbn [Ascii.eqb Bool.eqb].
    assert (Uj : json_nat j) by (apply H; now left). assert (Bi : blank (ind ++ "  ") = true) by now apply blank_app.
    rewrite next_sep; [|exact Bi|now apply elements_start|now left].
    rewrite elements_read; [reflexivity|assumption|exact Bi|discriminate| |cbn [need] in N; lia].
    intros x I. split; [now apply H|]. apply IH; auto.
  - inversion U as [| | | | |? H]; subst. destruct l as [|kv l]; [reflexivity|].
    rewrite put_object. cbn [get_value].
    change (skip_space (String "{" ?x)) with (String "{" x). cbv iota. cbn [Ascii.eqb Bool.eqb].
    assert (Bi : blank (ind ++ "  ") = true) by now apply blank_app.
    rewrite next_sep; [|exact Bi|apply members_start|now right].
    rewrite members_read; [reflexivity|assumption|exact Bi|discriminate| |cbn [need] in N; lia].
    intros k x I. pose proof (H k x I) as Ux. split; [exact Ux|]. exact (IH k x I Ux).
Qed.

(** ** Enough steps *)
Lemma join_sum : forall {A} sep (f : A -> string) (g : A -> nat) l, (1 <= String.length sep)%nat ->
  (forall x, In x l -> (g x <= String.length (f x))%nat) ->
  (list_sum (map (fun x => S (g x)) l) <= S (String.length (join sep (map f l))))%nat.
Proof.
  intros A sep f g l L. induction l as [|x l IH]; intros H; [cbn; lia|].
  specialize (IH (fun y I => H y (or_intror I))). pose proof (H x (or_introl eq_refl)) as Hx.
  destruct l as [|y l]; [cbn in *; lia|].
  cbn [map] in *. rewrite join_cons2. rewrite !length_app_s.
  change (list_sum (S (g x) :: S (g y) :: map (fun x => S (g x)) l))
    with (S (g x) + list_sum (S (g y) :: map (fun x => S (g x)) l))%nat. lia.
Qed.

Lemma need_length : forall j, json_nat j -> forall ind, (need j <= String.length (put_value ind j))%nat.
Proof.
  induction j as [|b|lit|s|l IH|l IH] using json_nested_ind; intros U ind.
  - cbn. lia.
  - destruct b; cbn; lia.
  - inversion U as [| |m Em| | |]; subst. cbn. pose proof (itoa_nonempty m).
    destruct (itoa m); [congruence|cbn; lia].
  - cbn. lia.
  - inversion U as [| | | |? H|]; subst. destruct l as [|j l]; [cbn; lia|].
    rewrite <- (app_nil_r_s (put_value ind (JArr (j :: l)))), put_array. cbn [String.length need].
    assert (X : forall x, In x (j :: l) -> (need x <= String.length (put_value (ind ++ "  ") x))%nat)
      by (intros x I; apply IH; auto).
    pose proof (join_sum ("," ++ newline_s ++ (ind ++ "  ")) _ _ (j :: l) ltac:(cbn; lia) X) as J.
    rewrite !length_app_s in *. cbn [String.length newline_s] in *. lia.
  - inversion U as [| | | | |? H]; subst. destruct l as [|kv l]; [cbn; lia|].
    rewrite <- (app_nil_r_s (put_value ind (JObj (kv :: l)))), put_object. cbn [String.length need].
    assert (X : forall x, In x (kv :: l) ->
              ((let '(_, v) := x in need v) <= String.length (put_member (ind ++ "  ") x))%nat).
    { intros [k v] I. pose proof (IH k v I (H k v I) (ind ++ "  ")) as L.
      cbn [put_member]. rewrite !length_app_s. lia. }
    pose proof (join_sum ("," ++ newline_s ++ (ind ++ "  ")) (put_member (ind ++ "  "))
      (fun x : string * json => let '(_, v) := x in need v) (kv :: l) ltac:(cbn; lia) X) as J.
    cbv beta in J.
    assert (M : map (fun x : string * json => S (let '(_, v) := x in need v)) (kv :: l)
                = map (fun kv0 : string * json => let '(_, x) := kv0 in S (need x)) (kv :: l)).
    { apply map_ext. now intros [k v]. }
    rewrite M in J. rewrite !length_app_s in *. cbn [String.length newline_s] in *. lia.
Qed.

Lemma clean_nesting : forall j, nesting (clean_json j) = nesting j.
Proof.
  induction j as [|b|lit|s|l IH|l IH] using json_nested_ind; try reflexivity.
  - cbn [clean_json nesting]. rewrite map_map. do 2 f_equal. apply map_ext_in. auto.
  - cbn [clean_json nesting]. rewrite map_map. do 2 f_equal. apply map_ext_in. intros [k v] I. now apply (IH k).
Qed.
Lemma max_list : forall l n, (forall x, In x l -> (x <= n)%N) -> (fold_right N.max 0 l <= n)%N.
Proof.
  induction l as [|x l IH]; intros n H; cbn; [lia|]. apply N.max_lub; [apply H; now left|apply IH; intros y I; apply H; now right].
Qed.
Lemma text_read : forall j, json_nat j -> (nesting j <= max_nesting)%N -> read_text (put_value "" j) = Some (clean_json j).
Proof.
  intros j U D. unfold read_text.
  pose proof (all_values_read j U "" (String.length (put_value "" j)) "" eq_refl (need_length j U "") I) as R.
  rewrite app_nil_r_s in R. rewrite R. cbn [skip_space]. rewrite clean_nesting. apply N.leb_le in D. now rewrite D.
Qed.

(** ** Schemas *)
Lemma utf8_one : forall a s, byte 0 127 a -> utf8 s -> utf8 (String a s).
Proof. intros a s A U. change (String a s) with (String a "" ++ s). constructor; [now constructor|exact U]. Qed.
Lemma utf8_ascii : forall s, string_forallb (byte_in 0 127) s = true -> utf8 s.
Proof.
  induction s as [|c s IH]; intros H; [constructor|]. cbn in H. apply andb_true_iff in H as [A B].
  apply utf8_one; [now apply byte_in_byte|auto].
Qed.
Lemma types_ascii : forall t, In t octopus_types -> utf8 t.
Proof.
  intros t I. apply utf8_ascii.
  assert (F : forallb (string_forallb (byte_in 0 127)) octopus_types = true) by (vm_compute; reflexivity).
  rewrite forallb_forall in F. auto.
Qed.

Definition clean_ref (r : reference) : reference := mkRef (clean (ref_table r)) (clean (ref_column r)) (clean (ref_rel r)).
Definition clean_column (c : column) : column :=
  mkCol (clean (c_name c)) (clean (c_type c)) (clean (c_desc c)) (c_size c) (c_scale c) (c_notnull c) (c_pk c)
    (c_uq c) (c_autoinc c) (clean (c_default c)) (clean (c_onupdate c)) (map clean (c_values c))
    (option_map clean_ref (c_ref c)).
Definition clean_index (i : index) : index := mkIdx (clean (ix_name i)) (map clean (ix_cols i)).
Definition clean_table (t : table) : table :=
  mkTable (clean (t_name t)) (map clean_column (t_cols t)) (clean (t_desc t)) (clean (t_group t)) (clean (t_class t))
    (map clean_index (t_indices t)).
Definition clean_schema (s : schema) : schema :=
  mkSchema (clean (s_author s)) (clean (s_name s)) (clean (s_version s)) (map clean_table (s_tables s)).

Lemma om_str_clean : forall k s, map clean_member (om_str k s) = om_str (clean k) (clean s).
Proof.
  intros k s. unfold om_str. destruct (String.eqb_spec s "") as [->|NE]; [reflexivity|].
  destruct (String.eqb_spec (clean s) "") as [E|_]; [apply (proj1 (clean_empty s)) in E; contradiction|reflexivity].
Qed.
Lemma om_num_clean : forall k n, map clean_member (om_num k n) = om_num (clean k) n.
Proof. intros k n. unfold om_num. now destruct (N.eqb n 0). Qed.
Lemma om_bool_clean : forall k b, map clean_member (om_bool k b) = om_bool (clean k) b.
Proof. intros k b. unfold om_bool. now destruct b. Qed.
Lemma om_arr_clean : forall k l, map clean_member (om_arr k l) = om_arr (clean k) (map clean_json l).
Proof. intros k l. unfold om_arr. now destruct l. Qed.

Lemma strs_clean : forall l, map clean_json (map JStr l) = map JStr (map clean l).
Proof. intros l. rewrite !map_map. reflexivity. Qed.

Ltac cleans := rewrite ?map_app, ?om_str_clean, ?om_num_clean, ?om_bool_clean, ?om_arr_clean.

Lemma enc_ref_clean : forall r, clean_json (enc_ref r) = enc_ref (clean_ref r).
Proof.
  intros r. unfold enc_ref. cbn [clean_json]. f_equal.
  change (fun kv : string * json => let '(k, v) := kv in (clean k, clean_json v)) with clean_member.
  cleans. reflexivity.
Qed.
Lemma enc_column_clean : forall c, clean_json (enc_column c) = enc_column (clean_column c).
Proof.
  intros c. unfold enc_column. cbn [clean_json]. f_equal.
  change (fun kv : string * json => let '(k, v) := kv in (clean k, clean_json v)) with clean_member.
  cleans. rewrite strs_clean. unfold clean_column. cbn [c_ref].
  destruct (c_ref c) as [r|]; [|reflexivity]. cbn [option_map map clean_member]. rewrite enc_ref_clean. reflexivity.
Qed.
Lemma enc_index_clean : forall i, clean_json (enc_index i) = enc_index (clean_index i).
Proof.
  intros [n [|c cs]]; [reflexivity|]. unfold enc_index, clean_index. cbn [ix_name ix_cols clean_json map].
  rewrite strs_clean. reflexivity.
Qed.
Lemma enc_table_clean : forall t, clean_json (enc_table t) = enc_table (clean_table t).
Proof.
  intros t. unfold enc_table. cbn [clean_json]. f_equal.
  change (fun kv : string * json => let '(k, v) := kv in (clean k, clean_json v)) with clean_member.
  cleans. unfold clean_table. cbn [t_name t_cols t_desc t_group t_class t_indices]. rewrite !map_map.
  rewrite (map_ext _ _ enc_column_clean), (map_ext _ _ enc_index_clean). reflexivity.
Qed.
Lemma enc_schema_clean : forall s, clean_json (enc_schema s) = enc_schema (clean_schema s).
Proof.
  intros s. unfold enc_schema. cbn [clean_json]. f_equal.
  change (fun kv : string * json => let '(k, v) := kv in (clean k, clean_json v)) with clean_member.
  cleans. unfold clean_schema. cbn [s_author s_name s_version s_tables]. rewrite !map_map.
  rewrite (map_ext _ _ enc_table_clean). reflexivity.
Qed.

Definition member_nat (kv : string * json) : Prop := json_nat (snd kv).
Lemma obj_nat : forall l, Forall member_nat l -> json_nat (JObj l).
Proof. intros l H. constructor. intros k j I. rewrite Forall_forall in H. exact (H _ I). Qed.
Lemma om_str_nat : forall k s, Forall member_nat (om_str k s).
Proof. intros k s. unfold om_str. destruct (String.eqb s ""); repeat constructor. Qed.
Lemma om_num_nat : forall k n, Forall member_nat (om_num k n).
Proof. intros k n. unfold om_num. destruct (N.eqb n 0); repeat constructor. Qed.
Lemma om_bool_nat : forall k b, Forall member_nat (om_bool k b).
Proof. intros k b. unfold om_bool. destruct b; repeat constructor. Qed.
Lemma om_arr_nat : forall k l, (forall j, In j l -> json_nat j) -> Forall member_nat (om_arr k l).
Proof. intros k l H. unfold om_arr. destruct l; repeat constructor; auto. Qed.
Lemma strs_nat : forall l j, In j (map JStr l) -> json_nat j.
Proof. intros l j I. apply in_map_iff in I as (x & <- & I). constructor. Qed.

Ltac nats :=
  repeat first [apply Forall_app; split | apply om_str_nat | apply om_num_nat | apply om_bool_nat
               | apply om_arr_nat | apply strs_nat | apply Forall_nil | apply Forall_cons].

Lemma enc_schema_nat : forall s, json_nat (enc_schema s).
Proof.
  intros s. apply obj_nat. nats. intros j I. apply in_map_iff in I as (t & <- & _).
  apply obj_nat. nats.
  - intros j I. apply in_map_iff in I as (c & <- & _). apply obj_nat. nats; try constructor.
    destruct (c_ref c); nats. apply obj_nat. nats.
  - intros j I. apply in_map_iff in I as (i & <- & _). apply obj_nat. nats; unfold member_nat; cbn [snd]; try constructor.
    destruct (ix_cols i) as [|x l]; constructor. intros j I. exact (strs_nat (x :: l) j I).
Qed.

(** ** Cleaned schemas *)
Lemma map_forall2 : forall {A B} (R : A -> B -> Prop) f l, (forall x, R x (f x)) -> Forall2 R l (map f l).
Proof. intros A B R f l H. induction l; constructor; auto. Qed.

Lemma clean_schema_cleaned : forall s, cleaned_schema s (clean_schema s).
Proof.
  intros s. unfold cleaned_schema. cbn. repeat split; try apply clean_cleaned.
  apply map_forall2. intros t. unfold cleaned_table. cbn. repeat split; try apply clean_cleaned.
  - apply map_forall2. intros c. unfold cleaned_column. cbn. repeat split; try apply clean_cleaned.
    + apply map_forall2, clean_cleaned.
    + destruct (c_ref c) as [r|]; cbn; [|exact I]. unfold cleaned_ref. cbn. repeat split; apply clean_cleaned.
  - apply map_forall2. intros i. unfold cleaned_index. cbn. split; [apply clean_cleaned|].
    apply map_forall2, clean_cleaned.
Qed.

(** a text in UTF-8 is cleaned to itself only *)
Lemma app_inj_s : forall a b c, a ++ b = a ++ c -> b = c.
Proof. induction a as [|x a IH]; intros b c H; [exact H|]. inversion H. auto. Qed.
Lemma clean_step_char : forall x s r, character x -> cleaned (x ++ s) r -> exists r', r = x ++ r' /\ cleaned s r'.
Proof.
  intros x s r C H. inversion H as [E|y t t' Cy Ht E E'|a t t' B Ht E E'].
  - pose proof (character_nonempty x C). destruct x; [congruence|discriminate].
  - assert (L : y = x).
    { pose proof (rune_size_character x s C) as Lx. pose proof (rune_size_character y t Cy) as Ly.
      rewrite E, Lx in Ly. pose proof (take_app x s) as Tx. pose proof (take_app y t) as Ty. congruence. }
    subst y. exists t'. split; [reflexivity|]. apply app_inj_s in E. now subst.
  - exfalso. exact (B x s C E).
Qed.
Lemma cleaned_clean : forall s s', cleaned s s' -> s' = clean s.
Proof.
  induction 1 as [|x s s' C H IH|a s s' B H IH]; [reflexivity| |].
  - now rewrite clean_app, IH.
  - subst s'. assert (NE : String a s <> "") by discriminate. unfold clean at 2.
    destruct (chars_step (String a s) _ NE (le_n _)) as (x & y & r & m' & _ & Lr & Lm & _ & E & _ & _ & [[C Es]|(a' & Es & Ex & _)]).
    + exfalso. exact (B _ _ C Es).
    + rewrite E, Ex. inversion Es; subst.
      rewrite (clean_chars_more (String.length r) r (le_n _) m' (String.length r) Lm (le_n _)). reflexivity.
Qed.

Lemma clean_list_utf8 : forall l, (forall x, In x l -> utf8 x) -> map clean l = l.
Proof.
  induction l as [|x l IH]; intros H; [reflexivity|]. cbn. rewrite clean_utf8, IH; auto.
  - intros; apply H; now right.
  - apply H; now left.
Qed.
Lemma map_same : forall {A} (f : A -> A) l, (forall x, In x l -> f x = x) -> map f l = l.
Proof.
  intros A f l. induction l as [|x l IH]; intros H; [reflexivity|]. cbn. rewrite IH, H; auto.
  - now left.
  - intros; apply H; now right.
Qed.

Lemma clean_column_utf8 : forall c, (forall x, In x (column_strings c) -> utf8 x) -> clean_column c = c.
Proof.
  intros [n t d sz sc nn pk uq ai df ou vs rf] H. unfold column_strings in H. cbn [c_name c_type c_desc c_default c_onupdate c_values c_ref] in H.
  unfold clean_column. cbn [c_name c_type c_desc c_size c_scale c_notnull c_pk c_uq c_autoinc c_default c_onupdate c_values c_ref].
  rewrite !clean_utf8 by (apply H; cbn; tauto). rewrite clean_list_utf8.
  - f_equal. destruct rf as [[a b e]|]; [|reflexivity]. cbn. unfold clean_ref. cbn [ref_table ref_column ref_rel].
    rewrite !clean_utf8; [reflexivity|..]; apply H, in_or_app; right; apply in_or_app; right; cbn; tauto.
  - intros x I. apply H, in_or_app. right. apply in_or_app. now left.
Qed.
Lemma clean_table_utf8 : forall t, (forall x, In x (table_strings t) -> utf8 x) -> clean_table t = t.
Proof.
  intros [n cs d g cl ix] H. unfold table_strings in H. cbn [t_name t_cols t_desc t_group t_class t_indices] in H.
  unfold clean_table. cbn [t_name t_cols t_desc t_group t_class t_indices].
  rewrite !clean_utf8 by (apply H; cbn; tauto). f_equal.
  - apply map_same. intros c I. apply clean_column_utf8. intros x X. apply H, in_or_app. right. apply in_or_app. left.
    apply in_flat_map. eauto.
  - apply map_same. intros [m l] I. unfold clean_index. cbn [ix_name ix_cols].
    assert (Hi : forall x, In x (m :: l) -> utf8 x).
    { intros x X. apply H, in_or_app. right. apply in_or_app. right. apply in_flat_map.
      exists (mkIdx m l). split; [exact I|exact X]. }
    rewrite clean_utf8, clean_list_utf8; [reflexivity|intros; apply Hi; now right|apply Hi; now left].
Qed.
Lemma clean_schema_utf8 : forall s, schema_utf8 s -> clean_schema s = s.
Proof.
  intros [a n v ts] H. unfold schema_utf8, schema_strings in H. cbn [s_author s_name s_version s_tables] in H.
  unfold clean_schema. cbn [s_author s_name s_version s_tables].
  rewrite !clean_utf8 by (apply H; cbn; tauto). f_equal. apply map_same. intros t I. apply clean_table_utf8.
  intros x X. apply H, in_or_app. right. apply in_flat_map. eauto.
Qed.

(** ** Saving and loading *)
Lemma repaired_column_utf8 : forall c c', column_repaired c c' -> In (c_type c') octopus_types ->
  (forall x, In x (column_strings c) -> utf8 x) -> forall x, In x (column_strings c') -> utf8 x.
Proof.
  intros c c' (_ & _ & E1 & E2 & _ & _ & _ & _ & _ & E3 & E4 & E5 & E6) T H x I.
  unfold column_strings in *. rewrite E1, E2, E3, E4, E5, E6 in I.
  cbn [app In] in I. destruct I as [I|[I|I]].
  - apply H. left. exact I.
  - subst. now apply types_ascii.
  - apply H. right. right. exact I.
Qed.

Lemma repaired_columns_utf8 : forall l l', Forall2 column_repaired l l' ->
  (forall c, In c l' -> In (c_type c) octopus_types) ->
  (forall x, In x (flat_map column_strings l) -> utf8 x) -> forall x, In x (flat_map column_strings l') -> utf8 x.
Proof.
  induction 1 as [|c c' l l' R F IH]; intros T H x I; [destruct I|]. cbn [flat_map] in *.
  apply in_app_or in I as [I|I].
  - apply (repaired_column_utf8 c c' R); [apply T; now left| |exact I].
    intros y Y. apply H, in_or_app. auto.
  - apply IH; [intros; apply T; now right| |exact I]. intros y Y. apply H, in_or_app. auto.
Qed.

Lemma repaired_table_utf8 : forall t t', table_repaired t t' ->
  (forall c, In c (t_cols t') -> In (c_type c) octopus_types) ->
  (forall x, In x (table_strings t) -> utf8 x) -> forall x, In x (table_strings t') -> utf8 x.
Proof.
  intros t t' (F & E1 & E2 & E3 & E4 & E5) T H x I. unfold table_strings in *.
  rewrite E1, E2, E3, E4, E5 in I. apply in_app_or in I as [I|I]; [apply H, in_or_app; auto|].
  apply in_app_or in I as [I|I].
  - apply (repaired_columns_utf8 _ _ F T); [|exact I]. intros y Y. apply H, in_or_app. right. apply in_or_app. auto.
  - apply H, in_or_app. right. apply in_or_app. auto.
Qed.

Lemma repaired_tables_utf8 : forall l l', Forall2 table_repaired l l' ->
  (forall c, In c (flat_map t_cols l') -> In (c_type c) octopus_types) ->
  (forall x, In x (flat_map table_strings l) -> utf8 x) -> forall x, In x (flat_map table_strings l') -> utf8 x.
Proof.
  induction 1 as [|c c' l l' R F IH]; intros T H x I; [destruct I|]. cbn [flat_map] in *.
  apply in_app_or in I as [I|I].
  - apply (repaired_table_utf8 c c' R); [intros; apply T, in_or_app; now left| |exact I].
    intros y Y. apply H, in_or_app. auto.
  - apply IH; [intros; apply T, in_or_app; now right| |exact I]. intros y Y. apply H, in_or_app. auto.
Qed.

Lemma normalized_utf8 : forall sortf s s', sorts_tables sortf -> normalize sortf s = (s', None) ->
  schema_utf8 s -> schema_utf8 s'.
Proof.
  intros sortf s s' Hs N U. destruct (normalize_ok _ _ _ Hs N) as ((ts & P & F) & _ & V & E1 & E2 & E3).
  intros x I. unfold schema_strings in I. rewrite E1, E2, E3 in I.
  apply in_app_or in I as [I|I]; [apply U, in_or_app; auto|].
  refine (repaired_tables_utf8 _ _ F _ _ x I).
  - intros c C. destruct (V c C) as (_ & T & _). exact T.
  - intros y Y. apply U, in_or_app. right. apply in_flat_map in Y as (t & T & Y). apply in_flat_map.
    exists t. split; [now apply (Permutation_in t P)|exact Y].
Qed.

(** ** A schema is nested six deep *)
Lemma obj_nesting : forall l n, (forall k v, In (k, v) l -> (nesting v <= n)%N) -> (nesting (JObj l) <= N.succ n)%N.
Proof.
  intros l n H. cbn [nesting]. apply -> N.succ_le_mono. apply max_list. intros x I. apply in_map_iff in I as ([k v] & <- & I). eauto.
Qed.
Lemma arr_nesting : forall l n, (forall v, In v l -> (nesting v <= n)%N) -> (nesting (JArr l) <= N.succ n)%N.
Proof.
  intros l n H. cbn [nesting]. apply -> N.succ_le_mono. apply max_list. intros x I. apply in_map_iff in I as (v & <- & I). eauto.
Qed.
Lemma om_str_nesting : forall n k s k' v, In (k', v) (om_str k s) -> (nesting v <= n)%N.
Proof. intros n k s k' v I. unfold om_str in I. destruct s; [destruct I|]. destruct I as [I|[]]. injection I as _ <-. cbn. lia. Qed.
Lemma om_num_nesting : forall n k s k' v, In (k', v) (om_num k s) -> (nesting v <= n)%N.
Proof. intros n k s k' v I. unfold om_num in I. destruct (N.eqb s 0); [destruct I|]. destruct I as [I|[]]. injection I as _ <-. cbn. lia. Qed.
Lemma om_bool_nesting : forall n k s k' v, In (k', v) (om_bool k s) -> (nesting v <= n)%N.
Proof. intros n k s k' v I. unfold om_bool in I. destruct s; [|destruct I]. destruct I as [I|[]]. injection I as _ <-. cbn. lia. Qed.
Lemma om_arr_nesting : forall n k l k' v, (forall j, In j l -> (nesting j <= n)%N) -> In (k', v) (om_arr k l) -> (nesting v <= N.succ n)%N.
Proof.
  intros n k l k' v H I. unfold om_arr in I. destruct l as [|j l]; [destruct I|]. destruct I as [I|[]]. injection I as _ <-.
  now apply arr_nesting.
Qed.
Ltac nested := repeat match goal with
  | H : In _ (_ ++ _)%list |- _ => apply in_app_or in H as [H|H]
  | H : In _ (om_str _ _) |- _ => exact (om_str_nesting _ _ _ _ _ H)
  | H : In _ (om_num _ _) |- _ => exact (om_num_nesting _ _ _ _ _ H)
  | H : In _ (om_bool _ _) |- _ => exact (om_bool_nesting _ _ _ _ _ H)
  end.
Lemma strings_nesting : forall n l j, In j (map JStr l) -> (nesting j <= n)%N.
Proof. intros n l j I. apply in_map_iff in I as (x & <- & _). cbn. lia. Qed.
Lemma enc_ref_nesting : forall r, (nesting (enc_ref r) <= 1)%N.
Proof. intros r. apply (obj_nesting _ 0). intros k v I. nested. Qed.
Lemma enc_column_nesting : forall c, (nesting (enc_column c) <= 2)%N.
Proof.
  intros c. apply (obj_nesting _ 1). intros k v I. nested.
  - destruct I as [I|[I|[]]]; injection I as _ <-; cbn; lia.
  - apply (om_arr_nesting 0) in I; [exact I|]. intros j J. exact (strings_nesting _ _ _ J).
  - destruct (c_ref c) as [r|]; [|destruct I]. destruct I as [I|[]]. injection I as _ <-. apply enc_ref_nesting.
Qed.
Lemma enc_index_nesting : forall i, (nesting (enc_index i) <= 2)%N.
Proof.
  intros i. apply (obj_nesting _ 1). intros k v [I|[I|[]]]; injection I as _ <-; [cbn; lia|].
  destruct (ix_cols i) as [|x l]; [cbn; lia|]. apply (arr_nesting _ 0). intros j J. exact (strings_nesting 0 (x :: l) j J).
Qed.
Lemma enc_table_nesting : forall t, (nesting (enc_table t) <= 4)%N.
Proof.
  intros t. apply (obj_nesting _ 3). intros k v I. nested.
  - apply (om_arr_nesting 2) in I; [exact I|]. intros j J. apply in_map_iff in J as (c & <- & _). apply enc_column_nesting.
  - apply (om_arr_nesting 2) in I; [exact I|]. intros j J. apply in_map_iff in J as (c & <- & _). apply enc_index_nesting.
Qed.
Lemma enc_schema_nesting : forall s, (nesting (enc_schema s) <= max_nesting)%N.
Proof.
  intros s. transitivity 6%N; [|unfold max_nesting; lia]. apply (obj_nesting _ 5). intros k v I. nested.
  apply (om_arr_nesting 4) in I; [exact I|]. intros j J. apply in_map_iff in J as (c & <- & _). apply enc_table_nesting.
Qed.

Lemma text_roundtrip : forall sortf s text, sorts_tables sortf -> fits_u16 s -> to_text sortf s = Some text ->
  exists s', normalize sortf s = (s', None) /\ read_text text = Some (enc_schema (clean_schema s')) /\ fits_u16 s'.
Proof.
  intros sortf s text Hs Hf H. unfold to_text, to_json in H.
  destruct (normalize sortf s) as [s' [e|]] eqn:N; [discriminate|]. change (Some (put_value "" (enc_schema s')) = Some text) in H. assert (E : text = put_value "" (enc_schema s')) by congruence. rewrite E.
  exists s'. split; [reflexivity|]. split.
  - rewrite text_read by (apply enc_schema_nat || apply enc_schema_nesting). now rewrite enc_schema_clean.
  - destruct (normalize_ok _ _ _ Hs N) as [[ts [P F]] _]. unfold fits_u16, columns_of.
    eapply repaired_fits; eauto. intros c Hc. apply Hf. unfold columns_of. eapply flat_map_perm; eauto.
Qed.

Lemma clean_fits : forall s, fits_u16 s -> fits_u16 (clean_schema s).
Proof.
  intros s H c I. unfold columns_of in I. cbn in I. apply in_flat_map in I as (t & T & I).
  apply in_map_iff in T as (t0 & <- & T). cbn in I. apply in_map_iff in I as (c0 & <- & I). cbn.
  apply H. apply in_flat_map. eauto.
Qed.

Lemma clean_valid : forall s, valid_schema s -> valid_schema (clean_schema s).
Proof.
  intros s H c I. unfold columns_of in I. cbn in I. apply in_flat_map in I as (t & T & I).
  apply in_map_iff in T as (t0 & <- & T). cbn in I. apply in_map_iff in I as (c0 & <- & I).
  assert (V : valid_column c0) by (apply H, in_flat_map; eauto).
  destruct V as (V1 & V2 & V3 & V4 & V5). unfold valid_column, clean_column.
  cbn [c_name c_type c_autoinc c_values]. rewrite (clean_utf8 (c_type c0)) by now apply types_ascii.
  repeat split; auto.
  - intros E. now apply (proj1 (clean_empty _)) in E.
  - intros E. specialize (V4 E). now destruct (c_values c0).
  - rewrite map_length. now apply V5.
  - rewrite map_length. now apply V5.
Qed.
