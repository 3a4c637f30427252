(** ParseType, Format, NormalizeType, default values *)
From Coq Require Import String Ascii List NArith Bool Lia Arith.
From Verif.Model Require Import GoString Util Octopus.
From Verif.Spec Require Import Order Text OctopusSpec.
From Verif.Proofs Require Import ListLemmas StringLemmas.
Import ListNotations.
Local Open Scope string_scope.

(** * ParseType *)
Lemma span_stop : forall f a r,
  string_forallb f a = true -> (match r with String c _ => f c = false | EmptyString => True end) ->
  span f (a ++ r) = (a, r).
Proof.
  induction a; simpl; intros r H1 H2.
  - destruct r; simpl; auto. now rewrite H2.
  - apply andb_true_iff in H1. destruct H1 as [H H1]. rewrite H.
    rewrite (IHa r H1 H2). reflexivity.
Qed.

Lemma match_type_no_letter : forall s,
  (forall c, char_in c s -> is_letter c = false) -> match_type s = None.
Proof.
  induction s; intros H; simpl.
  - reflexivity.
  - assert (E : match_type_at (String a s) = None).
    { unfold match_type_at. simpl. rewrite H by (simpl; auto). reflexivity. }
    rewrite E. apply IHs. intros. apply H. simpl. auto.
Qed.

Lemma match_type_no_paren : forall s, ~ char_in "("%char s -> match_type s = None.
Proof.
  assert (SP : forall f s a r, span f s = (a, r) -> s = a ++ r).
  { induction s; simpl; intros a' r H; [inversion H; reflexivity|].
    destruct (f a); [|inversion H; reflexivity].
    destruct (span f s) eqn:E. inversion H; subst. simpl. f_equal. now apply IHs. }
  assert (M : forall s, ~ char_in "("%char s -> match_type_at s = None).
  { intros s H. unfold match_type_at. destruct (span is_letter s) as [n r] eqn:E.
    apply SP in E. subst. destruct n; auto.
    destruct r as [|d r]; auto. destruct (Ascii.eqb d "(") eqn:Ed; auto.
    apply Ascii.eqb_eq in Ed. subst. exfalso. apply H. simpl. right. apply char_in_app. simpl. auto. }
  induction s; intros H.
  - reflexivity.
  - cbn [match_type]. rewrite M by auto. apply IHs. intros X. apply H. simpl. auto.
Qed.

Lemma is_digit_not_letter : forall c, is_digit c = true -> is_letter c = false.
Proof. destruct c as [[] [] [] [] [] [] [] []]; vm_compute; congruence. Qed.
Lemma is_digit_not_sep : forall c, is_digit c = true -> is_sep c = false.
Proof. destruct c as [[] [] [] [] [] [] [] []]; vm_compute; congruence. Qed.
Lemma is_sep_not_digit : forall c, is_sep c = true -> is_digit c = false.
Proof. destruct c as [[] [] [] [] [] [] [] []]; vm_compute; congruence. Qed.

Lemma head_digit : forall n, exists d r, itoa n = String d r /\ is_digit d = true.
Proof.
  intros. pose proof (itoa_nonempty n). pose proof (itoa_digits n).
  destruct (itoa n) as [|d r]; [congruence|]. exists d, r. split; auto.
  simpl in H0. now apply andb_true_iff in H0.
Qed.

(** name(size sep scale) is recognised for letter-only names *)
Lemma match_type_at_form : forall name size sep scale rest,
  name <> "" -> string_forallb is_letter name = true ->
  size <> "" -> string_forallb is_digit size = true ->
  string_forallb is_sep sep = true -> string_forallb is_digit scale = true ->
  (scale <> "" -> sep <> "") ->
  match_type_at (name ++ "(" ++ size ++ sep ++ scale ++ ")" ++ rest) = Some (name, size, scale).
Proof.
  intros name size sep scale rest Hn1 Hn2 Hz1 Hz2 Hp Hc Hs. unfold match_type_at.
  change ("(" ++ size ++ sep ++ scale ++ ")" ++ rest) with (String "(" (size ++ sep ++ scale ++ String ")" rest)).
  rewrite span_stop; auto.
  destruct name as [|n0 name]; [congruence|]. cbv iota beta. rewrite Ascii.eqb_refl.
  rewrite (span_stop is_digit size (sep ++ scale ++ String ")" rest)); auto.
  - destruct size as [|z0 size]; [congruence|]. cbv iota beta.
    rewrite (span_stop is_sep sep (scale ++ String ")" rest)); auto.
    + rewrite (span_stop is_digit scale (String ")" rest)); auto.
    + destruct scale as [|s0 scale]; simpl; auto. simpl in Hc. apply andb_true_iff in Hc.
      now apply is_digit_not_sep.
  - destruct sep as [|p0 sep].
    + destruct scale as [|s0 scale]; [reflexivity|]. exfalso. apply Hs; congruence.
    + simpl. simpl in Hp. apply andb_true_iff in Hp. now apply is_sep_not_digit.
Qed.

Lemma match_type_form : forall name size sep scale rest,
  name <> "" -> string_forallb is_letter name = true ->
  size <> "" -> string_forallb is_digit size = true ->
  string_forallb is_sep sep = true -> string_forallb is_digit scale = true ->
  (scale <> "" -> sep <> "") ->
  match_type (name ++ "(" ++ size ++ sep ++ scale ++ ")" ++ rest) = Some (name, size, scale).
Proof.
  intros. pose proof (match_type_at_form name size sep scale rest H H0 H1 H2 H3 H4 H5) as M.
  destruct (name ++ _) as [|c s] eqn:E; cbn [match_type]; now rewrite M.
Qed.

Lemma atoi_itoa : forall n, (n < 65536)%N -> u16 (atoi_digits (itoa n)) = n.
Proof.
  intros. unfold atoi_digits. rewrite digits_to_N_itoa. unfold u16, max_int64.
  rewrite N.min_l by lia. now apply N.mod_small.
Qed.

Lemma parse_format_letters : forall c,
  c_type c <> "" -> string_forallb is_letter (c_type c) = true ->
  c_size c <> 0%N -> (c_size c < 65536)%N -> (c_scale c < 65536)%N ->
  parse_type (col_format c) = (c_type c, c_size c, c_scale c).
Proof.
  intros c H1 H2 H3 H4 H5. unfold parse_type, col_format.
  apply N.eqb_neq in H3. rewrite H3. destruct (N.eqb (c_scale c) 0) eqn:E.
  - pose proof (match_type_form (c_type c) (itoa (c_size c)) "" "" "" H1 H2
      (itoa_nonempty _) (itoa_digits _) eq_refl eq_refl (fun H => H)) as M.
    cbn [append] in M |- *. rewrite M. rewrite atoi_itoa by auto.
    apply N.eqb_eq in E. rewrite E. reflexivity.
  - pose proof (match_type_form (c_type c) (itoa (c_size c)) "," (itoa (c_scale c)) "" H1 H2
      (itoa_nonempty _) (itoa_digits _) eq_refl (itoa_digits _) (fun _ => ltac:(discriminate))) as M.
    cbn [append] in M |- *.
    rewrite M. now rewrite !atoi_itoa by auto.
Qed.

Lemma parse_format_plain : forall c, ~ char_in "("%char (c_type c) ->
  c_size c = 0%N -> parse_type (col_format c) = (c_type c, 0%N, 0%N).
Proof.
  intros c H1 H2. unfold parse_type, col_format. rewrite H2. simpl.
  now rewrite match_type_no_paren.
Qed.

(** a digit before the parenthesis: no match *)
Lemma no_letter_tail : forall n s, (forall c, char_in c s -> is_letter c = false) ->
  forall c, char_in c (String "(" (itoa n ++ s)) -> is_letter c = false.
Proof.
  intros n s H c [->|Hc]; [reflexivity|]. apply char_in_app in Hc. destruct Hc as [Hc|Hc]; auto.
  apply is_digit_not_letter. eapply forallb_char_in; [apply itoa_digits|exact Hc].
Qed.

Ltac in_cases H := repeat (destruct H as [H|H]; [subst|]); [..|destruct H].

Definition has_digit_name (t : string) : bool := negb (string_forallb is_letter t).

Lemma match_type_digit_name : forall t s, In t octopus_types -> string_forallb is_letter t = false ->
  (forall c, char_in c s -> is_letter c = false) ->
  (match s with String "(" _ => True | _ => False end) ->
  match_type (t ++ s) = None.
Proof.
  intros t s Ht Hd Hs Hp.
  assert (M : match_type s = None) by now apply match_type_no_letter.
  destruct s as [|p s]; [destruct Hp|].
  assert (p = "("%char) by (destruct p as [[] [] [] [] [] [] [] []]; simpl in Hp; tauto). subst p.
  assert (E : match_type_at (String "(" s) = None) by reflexivity.
  unfold octopus_types, integer_types, sized in Ht. simpl in Ht.
  repeat (destruct Ht as [<-|Ht]; [first [discriminate Hd | cbn -[match_type]; 
     repeat (cbn [match_type]; match goal with |- match ?m with _ => _ end = None => 
        change m with (@None (string*string*string)); cbv iota end); exact M]|]).
  destruct Ht.
Qed.

Lemma octopus_types_no_paren : forall t, In t octopus_types -> ~ char_in "("%char t.
Proof.
  intros t H. apply contains_char_false.
  assert (A : forallb (fun t => negb (contains_char "(" t)) octopus_types = true) by reflexivity.
  rewrite forallb_forall in A. specialize (A t H). now apply negb_true_iff in A.
Qed.

Lemma octopus_types_nonempty : forall t, In t octopus_types -> t <> "".
Proof.
  intros t H ->. assert (A : str_in "" octopus_types = false) by reflexivity.
  apply str_in_false in A. contradiction.
Qed.

Lemma parse_format_digit : forall c,
  In (c_type c) octopus_types -> string_forallb is_letter (c_type c) = false ->
  c_size c <> 0%N -> parse_type (col_format c) = (col_format c, 0%N, 0%N).
Proof.
  intros c H1 H2 H3. unfold parse_type.
  assert (M : match_type (col_format c) = None).
  { unfold col_format. apply N.eqb_neq in H3. rewrite H3. destruct (N.eqb (c_scale c) 0).
    - apply match_type_digit_name; auto.
      + apply no_letter_tail. intros x [->|[]]; reflexivity.
      + exact I.
    - apply match_type_digit_name; auto.
      + apply no_letter_tail. intros x [->|Hx]; [reflexivity|].
        change (char_in x (itoa (c_scale c) ++ ")")) in Hx.
        apply char_in_app in Hx. destruct Hx as [Hx|[->|[]]]; [|reflexivity].
        apply is_digit_not_letter. eapply forallb_char_in; [apply itoa_digits|exact Hx].
      + exact I. }
  now rewrite M.
Qed.

Lemma all_letters_iff : forall s,
  string_forallb is_letter s = true <-> all_chars (fun c => is_letter c = true) s.
Proof.
  unfold all_chars. split.
  - intros H c Hc. eapply forallb_char_in; eauto.
  - induction s; simpl; intros H; auto. apply andb_true_iff. split; auto.
Qed.

Lemma parse_format_exact : forall c,
  In (c_type c) octopus_types -> (c_size c < 65536)%N -> (c_scale c < 65536)%N ->
  (parse_type (col_format c) = (c_type c, c_size c, c_scale c) <->
   (c_size c = 0%N /\ c_scale c = 0%N) \/
   (c_size c <> 0%N /\ all_chars (fun x => is_letter x = true) (c_type c))).
Proof.
  intros c Ht Hs Hc. destruct (N.eq_dec (c_size c) 0) as [E|E].
  - rewrite parse_format_plain; auto; [|now apply octopus_types_no_paren]. split.
    + intros H. inversion H. left. split; congruence.
    + intros [[_ ->]|[H _]]; [now rewrite E|contradiction].
  - destruct (string_forallb is_letter (c_type c)) eqn:L.
    + split.
      * intros _. right. split; auto. now apply all_letters_iff.
      * intros _. apply parse_format_letters; auto. now apply octopus_types_nonempty.
    + rewrite parse_format_digit by auto. split.
      * intros H. inversion H. exfalso. congruence.
      * intros [[H _]|[_ H]]; [contradiction|]. apply all_letters_iff in H. congruence.
Qed.

(** * NormalizeType *)
Definition norm (t : string) : string := to_normalized_type (to_lower t).

Lemma octopus_types_valid : forall t, is_valid_col_type t = true <-> In t octopus_types.
Proof.
  intros. unfold is_valid_col_type. rewrite str_in_iff. split.
  - assert (A : forallb (fun t => str_in t octopus_types) col_types = true) by reflexivity.
    rewrite forallb_forall in A. intros H. apply str_in_iff. auto.
  - assert (A : forallb (fun t => str_in t col_types) octopus_types = true) by reflexivity.
    rewrite forallb_forall in A. intros H. apply str_in_iff. auto.
Qed.

Lemma to_normalized_alias : forall t t', In (t, t') documented_aliases -> to_normalized_type t = t'.
Proof.
  assert (A : forallb (fun p => String.eqb (to_normalized_type (fst p)) (snd p)) documented_aliases = true)
    by reflexivity.
  rewrite forallb_forall in A. intros t t' H. apply A in H. now apply String.eqb_eq in H.
Qed.

Lemma to_normalized_other : forall t, ~ In t (map fst documented_aliases) -> to_normalized_type t = t.
Proof.
  intros t H. unfold to_normalized_type. simpl in H.
  repeat (match goal with
  | |- (if String.eqb t ?x then _ else _) = _ =>
      destruct (String.eqb_spec t x) as [->|?]; [exfalso; tauto|]
  end). reflexivity.
Qed.

Lemma alias_unique : forall t a b, In (t, a) documented_aliases -> In (t, b) documented_aliases -> a = b.
Proof. intros t a b H1 H2. apply to_normalized_alias in H1, H2. congruence. Qed.

Lemma canonical_norm : forall t t', canonical t t' <-> t' = norm t.
Proof.
  intros. unfold canonical, norm. split.
  - intros [H|[H ->]].
    + symmetry. now apply to_normalized_alias.
    + symmetry. now apply to_normalized_other.
  - intros ->. destruct (in_dec string_dec (to_lower t) (map fst documented_aliases)) as [H|H].
    + left. apply in_map_iff in H. destruct H as [[a b] [E H]]. simpl in E. subst.
      rewrite (to_normalized_alias _ _ H). exact H.
    + right. split; auto. now rewrite to_normalized_other.
Qed.

Lemma octopus_not_alias : forall t, In t octopus_types -> ~ In t (map fst documented_aliases).
Proof.
  assert (A : forallb (fun t => negb (str_in t (map fst documented_aliases))) octopus_types = true)
    by reflexivity.
  rewrite forallb_forall in A. intros t H. apply A in H. apply negb_true_iff in H.
  now apply str_in_false.
Qed.

Lemma octopus_lower : forall t, In t octopus_types -> to_lower t = t.
Proof.
  assert (A : forallb (fun t => String.eqb (to_lower t) t) octopus_types = true) by reflexivity.
  rewrite forallb_forall in A. intros t H. apply A in H. now apply String.eqb_eq in H.
Qed.

Lemma norm_valid_fixed : forall t, In t octopus_types -> norm t = t.
Proof.
  intros. unfold norm. rewrite octopus_lower by auto. apply to_normalized_other.
  now apply octopus_not_alias.
Qed.

Lemma alias_target_valid : forall t t', In (t, t') documented_aliases -> In t' octopus_types.
Proof.
  assert (A : forallb (fun p => str_in (snd p) octopus_types) documented_aliases = true) by reflexivity.
  rewrite forallb_forall in A. intros t t' H. apply A in H. now apply str_in_iff in H.
Qed.

Lemma norm_idem : forall t, norm (norm t) = norm t.
Proof.
  intros. destruct (proj2 (canonical_norm t (norm t)) eq_refl) as [H|[H E]].
  - apply alias_target_valid in H. now apply norm_valid_fixed.
  - rewrite E. unfold norm. rewrite to_lower_idem. now apply to_normalized_other.
Qed.

Lemma norm_case : forall t u, to_lower t = to_lower u -> norm t = norm u.
Proof. intros. unfold norm. now rewrite H. Qed.

Lemma normalize_type_facts :
  (forall c, normalize_type (normalize_type c) = normalize_type c) /\
  (forall c d, to_lower (c_type c) = to_lower (c_type d) ->
     c_type (normalize_type c) = c_type (normalize_type d)) /\
  (forall c, canonical (c_type c) (c_type (normalize_type c))) /\
  (forall c t', In (to_lower (c_type c), t') documented_aliases ->
     c_type (normalize_type c) = t' /\ is_valid_col_type t' = true) /\
  (forall c, In (c_type c) octopus_types <-> is_valid_col_type (c_type c) = true) /\
  (forall c, is_valid_col_type (c_type c) = true -> normalize_type c = c).
Proof.
  split; [|split; [|split; [|split; [|split]]]]; intros.
  - unfold normalize_type. simpl. fold (norm (c_type c)). fold (norm (norm (c_type c))).
    rewrite norm_idem. reflexivity.
  - simpl. now apply norm_case.
  - apply canonical_norm. reflexivity.
  - split; [simpl; now apply to_normalized_alias|].
    apply octopus_types_valid. eapply alias_target_valid; eauto.
  - symmetry. apply octopus_types_valid.
  - unfold normalize_type. fold (norm (c_type c)). rewrite norm_valid_fixed.
    + destruct c. reflexivity.
    + now apply octopus_types_valid.
Qed.

(** * Default values *)
Lemma get_value_fn : forall f, get_value (fn_prefix ++ f) = (f, true).
Proof.
  intros. unfold get_value. unfold has_prefix. rewrite prefix_app.
  reflexivity.
Qed.

Lemma get_value_lit : forall v, ~ (exists r, v = fn_prefix ++ r) -> get_value v = (v, false).
Proof.
  intros v H. unfold get_value, has_prefix. destruct (String.prefix fn_prefix v) eqn:E; auto.
  apply prefix_iff in E. contradiction.
Qed.
