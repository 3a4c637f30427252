(** Schema files can be put into other documents (C120) *)
From Coq Require Import String Ascii List NArith Bool Arith Lia Sorting.Permutation.
From Verif.Model Require Import GoString Util Octopus Json JsonText Cli.
From Verif.Spec Require Import Text OctopusSpec JsonSpec CliSpec SafeSpec.
From Verif.Proofs Require Import StringLemmas OctopusProofs JsonProofs JsonTextProofs CliImports.
Import ListNotations.
Local Open Scope string_scope.

Notation safe := (text_of harmless).

Lemma text_app : forall P a b, text_of P a -> text_of P b -> text_of P (a ++ b).
Proof.
  intros P a b A B. induction A as [|x s C H A IH]; [exact B|]. rewrite app_assoc_s. now constructor.
Qed.

(** bytes of ASCII *)
Definition good_byte (a : ascii) : bool :=
  let n := N_of_ascii a in
  (N.eqb n 10 || N.leb 32 n) && N.leb n 127 && negb (N.eqb n 60) && negb (N.eqb n 62) && negb (N.eqb n 38).
Lemma good_safe : forall s, string_forallb good_byte s = true -> safe s.
Proof.
  induction s as [|a s IH]; simpl; intros H; [constructor|]. apply andb_true_iff in H as [H1 H2].
  change (String a s) with (String a "" ++ s). constructor; auto.
  - constructor. unfold good_byte in H1. repeat (apply andb_true_iff in H1 as [H1 ?]). split; [lia|].
    now apply N.leb_le.
  - unfold good_byte in H1. repeat (apply andb_true_iff in H1 as [H1 ?]).
    repeat match goal with X : negb _ = true |- _ => apply negb_true_iff, N.eqb_neq in X end.
    split; [|split].
    + intros [C|[C|[C|[]]]]; injection C as C; subst a; cbn in *; congruence.
    + intros [C|[C|[]]]; discriminate C.
    + intros b E. injection E as <-. apply orb_true_iff in H1 as [H1|H1]; [left|right; now apply N.leb_le].
      apply N.eqb_eq in H1. rewrite <- (ascii_N_embedding a), H1. reflexivity.
Qed.

Lemma put_ascii_good : forall c, byte 0 127 c -> string_forallb good_byte (put_ascii c) = true.
Proof.
  intros c [_ H]. destruct c as [[] [] [] [] [] [] [] []]; try (exfalso; apply H; reflexivity); reflexivity.
Qed.

Lemma chars_safe : forall n s, safe (put_chars n s).
Proof.
  induction n as [|n IH]; intros s; [constructor|]. destruct s as [|a s]; [constructor|].
  assert (NE : String a s <> "") by discriminate.
  destruct (rune_size_some _ NE) as [Z|(x & r & E & C & Z)].
  - cbn [put_chars]. rewrite Z. apply text_app; [now apply good_safe|apply IH].
  - pose proof (character_shape x C) as [(b & -> & Hb)|(L2 & b & x' & Ex & Hb)].
    + cbn [put_chars]. rewrite Z. cbn [String.length]. injection E as -> _.
      apply text_app; [apply good_safe; now apply put_ascii_good|apply IH].
    + cbn [put_chars]. rewrite Z. rewrite E. pose proof (take_app x r) as T.
      destruct (String.length x) as [|[|k]] eqn:Lx; [lia|lia|]. rewrite T. apply text_app; [|apply IH].
      destruct (String.eqb_spec x line_separator) as [->|N1]; [now apply good_safe|].
      destruct (String.eqb_spec x paragraph_separator) as [->|N2]; [now apply good_safe|].
      rewrite <- (app_nil_r_s x). constructor; [exact C| |constructor].
      split; [|split].
      * intros [<-|[<-|[<-|[]]]]; discriminate Lx.
      * intros [D|[D|[]]]; [apply N1|apply N2]; now symmetry.
      * intros c ->. discriminate Lx.
Qed.
Lemma string_safe : forall s, safe (put_string s).
Proof.
  intros s. unfold put_string. repeat apply text_app; [now apply good_safe|apply chars_safe|now apply good_safe].
Qed.

Lemma join_safe : forall sep l, safe sep -> (forall x, In x l -> safe x) -> safe (join sep l).
Proof.
  intros sep l S. induction l as [|x l IH]; intros H; [constructor|]. destruct l as [|y l].
  - apply H. now left.
  - change (join sep (x :: y :: l)) with (x ++ sep ++ join sep (y :: l)).
    apply text_app; [apply H; now left|]. apply text_app; auto. apply IH. intros z Hz. apply H. now right.
Qed.

Lemma value_safe : forall j, json_nat j -> forall ind, safe ind -> safe (put_value ind j).
Proof.
  induction j as [|b|l|s|l IH|l IH] using json_nested_ind; intros J ind I.
  - now apply good_safe.
  - destruct b; now apply good_safe.
  - inversion J; subst. cbn [put_value]. apply good_safe. pose proof (itoa_digits n) as D. revert D. generalize (itoa n). clear.
    induction s as [|a s IH]; simpl; auto. intros H. apply andb_true_iff in H as [H1 H2]. rewrite IH; auto.
    rewrite andb_true_r. clear - H1. destruct a as [[] [] [] [] [] [] [] []]; try discriminate H1; reflexivity.
  - apply string_safe.
  - inversion J as [| | | |? Hl|]; subst. destruct l as [|x l]; [now apply good_safe|].
    assert (I2 : safe (ind ++ "  ")) by (apply text_app; [exact I|now apply good_safe]).
    assert (Nl : safe newline_s) by (now apply good_safe).
    cbn [put_value].
    assert (Sp : safe (newline_s ++ ind ++ "  ")) by (now apply text_app).
    apply text_app; [now apply good_safe|]. apply text_app; [exact Sp|]. apply text_app.
    + apply join_safe; [apply text_app; [now apply good_safe|exact Sp]|].
      intros y Hy. apply in_map_iff in Hy as (z & <- & Hz). apply IH; auto.
    + apply text_app; [exact Nl|]. apply text_app; [exact I|now apply good_safe].
  - inversion J as [| | | | |? Hl]; subst. destruct l as [|x l]; [now apply good_safe|].
    assert (I2 : safe (ind ++ "  ")) by (apply text_app; [exact I|now apply good_safe]).
    assert (Nl : safe newline_s) by (now apply good_safe).
    cbn [put_value].
    assert (Sp : safe (newline_s ++ ind ++ "  ")) by (now apply text_app).
    apply text_app; [now apply good_safe|]. apply text_app; [exact Sp|]. apply text_app.
    + apply join_safe; [apply text_app; [now apply good_safe|exact Sp]|].
      intros y Hy. apply in_map_iff in Hy as ([k z] & <- & Hz).
      apply text_app; [apply string_safe|]. apply text_app; [now apply good_safe|]. apply (IH k); auto. now apply (Hl k).
    + apply text_app; [exact Nl|]. apply text_app; [exact I|now apply good_safe].
Qed.

Lemma file_safe : forall sortf s text, to_text sortf s = Some text -> text_of harmless text.
Proof.
  intros sortf s text H. unfold to_text, to_json in H. destruct (normalize sortf s) as [s' [e|]]; [discriminate|].
  assert (E : text = put_value "" (enc_schema s')) by (cbn [option_map] in H; congruence). subst text.
  apply value_safe; [apply enc_schema_nat|constructor].
Qed.

Lemma import_safe : forall w fs c v ws, (forall l, Permutation (w_sort_v1 w l) l) ->
  import_command c -> run w fs c v = (ws, Done) -> exists text, ws = [(given v "output", text)] /\ text_of harmless text.
Proof.
  intros w fs c v ws Hv I R. destruct (import_saves w fs c v ws Hv I R) as (s & text & _ & T & ->).
  exists text. split; [reflexivity|]. exact (file_safe _ _ _ T).
Qed.

(** harmless text is UTF-8 *)
Lemma text_utf8 : forall P s, text_of P s -> utf8 s.
Proof. intros P s H. induction H; constructor; auto. Qed.
