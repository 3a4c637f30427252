(** The strings of a document that has been read are UTF-8 text *)
From Coq Require Import String Ascii List NArith ZArith Bool Arith Lia ZifyN Sorting.Permutation.
From Verif.Model Require Import GoString Util Octopus Json JsonText.
From Verif.Spec Require Import Text OctopusSpec JsonSpec.
From Verif.Proofs Require Import StringLemmas JsonTextProofs.
Import ListNotations.
Local Open Scope string_scope.

Fixpoint json_strings (j : json) : list string :=
  match j with
  | JStr s => [s]
  | JArr l => flat_map json_strings l
  | JObj l => flat_map (fun kv => fst kv :: json_strings (snd kv)) l
  | _ => []
  end.
Definition json_utf8 (j : json) : Prop := forall x, In x (json_strings j) -> utf8 x.

Lemma byte_of_N : forall lo hi n, (lo <= n)%N -> (n <= hi)%N -> (hi < 256)%N -> byte lo hi (ascii_of_N n).
Proof. intros lo hi n L H B. unfold byte. rewrite N_ascii_embedding; lia. Qed.
Ltac Zify.zify_post_hook ::= Z.div_mod_to_equations.
Lemma rune_character : forall n, (n < 55296)%N \/ (57344 <= n < 1114112)%N -> character (put_rune n).
Proof.
  intros n H. unfold put_rune. destruct (N.ltb_spec n 128).
  { apply ch_1. apply byte_of_N; lia. }
  destruct (N.ltb_spec n 2048).
  { apply ch_2; apply byte_of_N; lia. }
  destruct (N.ltb_spec n 65536).
  - destruct (N.ltb_spec n 4096); [apply ch_3a; apply byte_of_N; lia|].
    destruct (N.ltb_spec n 53248); [apply ch_3b; apply byte_of_N; lia|].
    destruct (N.ltb_spec n 55296); [apply ch_3c; apply byte_of_N; lia|].
    apply ch_3d; apply byte_of_N; lia.
  - destruct (N.ltb_spec n 262144); [apply ch_4a; apply byte_of_N; lia|].
    destruct (N.ltb_spec n 1048576); [apply ch_4b; apply byte_of_N; lia|].
    apply ch_4c; apply byte_of_N; lia.
Qed.
Lemma hex_small : forall c n, hex_value c = Some n -> (n < 16)%N.
Proof.
  intros c n. unfold hex_value. destruct (byte_in 48 57 c) eqn:A; [|destruct (byte_in 97 102 c) eqn:B; [|destruct (byte_in 65 70 c) eqn:C]];
    intros E; inversion E; subst; split_bytes; unfold byte in *; lia.
Qed.
Lemma hex4_small : forall s n r, get_hex4 s = Some (n, r) -> (n < 65536)%N.
Proof.
  intros s n r. destruct s as [|a [|b [|c [|d s]]]]; cbn [get_hex4]; try discriminate.
  destruct (hex_value a) as [x|] eqn:A; [|discriminate]. destruct (hex_value b) as [y|] eqn:B; [|discriminate].
  destruct (hex_value c) as [z|] eqn:C; [|discriminate]. destruct (hex_value d) as [u|] eqn:D; [|discriminate].
  apply hex_small in A, B, C, D. intros E. injection E as <- _. lia.
Qed.
Lemma replacement_char : character replacement.
Proof. apply rune_character. lia. Qed.
Lemma unicode_character : forall s x r, get_unicode s = Some (x, r) -> character x.
Proof.
  intros s x r. unfold get_unicode. destruct (get_hex4 s) as [[a r1]|] eqn:A; [|discriminate]. apply hex4_small in A.
  unfold surrogate. destruct (N.leb_spec 55296 a), (N.ltb_spec a 57344); cbn [andb].
  2-4: intros E; injection E as <- _; apply rune_character; lia.
  intros E. destruct r1 as [|y [|z r1]]; [injection E as <- _; exact replacement_char..|].
  destruct (_ && _)%bool; [|injection E as <- _; exact replacement_char].
  destruct (get_hex4 r1) as [[b r2]|]; [|discriminate]. unfold pair_rune in E.
  destruct (N.leb_spec 55296 a), (N.ltb_spec a 56320), (N.leb_spec 56320 b), (N.ltb_spec b 57344); cbn [andb] in E;
    injection E as <- _; first [exact replacement_char|apply rune_character; lia].
Qed.
Lemma escape_character : forall s x r, get_escape s = Some (x, r) -> character x.
Proof.
  intros s x r. destruct s as [|c s]; [discriminate|]. cbn [get_escape].
  destruct (Ascii.eqb_spec c """") as [->|_]; [intros E; injection E as <- _; apply ch_1; split; vm_compute; discriminate|].
  destruct (Ascii.eqb_spec c "\") as [->|_]; [intros E; injection E as <- _; apply ch_1; split; vm_compute; discriminate|].
  destruct (Ascii.eqb_spec c "/") as [->|_]; [intros E; injection E as <- _; apply ch_1; split; vm_compute; discriminate|].
  cbn [orb].
  do 5 (destruct (Ascii.eqb c _); [intros E; injection E as <- _; apply ch_1; split; vm_compute; discriminate|]).
  destruct (Ascii.eqb c "u"); [apply unicode_character|discriminate].
Qed.
Lemma chars_utf8 : forall n s x r, get_chars n s = Some (x, r) -> utf8 x.
Proof.
  induction n as [|n IH]; intros s x r E; [discriminate|]. destruct s as [|c s]; [discriminate|]. cbn [get_chars] in E.
  destruct (Ascii.eqb c """"); [injection E as <- _; constructor|]. destruct (N.ltb (N_of_ascii c) 32); [discriminate|].
  assert (G : forall y q, (if Ascii.eqb c "\" then get_escape s
       else match rune_size (String c s) with O => Some (replacement, s)
            | k => Some (string_take k (String c s), string_drop k (String c s)) end) = Some (y, q) -> character y).
  { intros y q. destruct (Ascii.eqb c "\"); [apply escape_character|].
    destruct (rune_size_some (String c s)) as [Z|(z & q' & Es & C & Z)]; [discriminate|rewrite Z; intros G; injection G as <- _; exact replacement_char|].
    rewrite Z, Es. pose proof (character_nonempty z C) as NE. pose proof (take_app z q') as T.
    destruct (String.length z) as [|k] eqn:L; [destruct z; [congruence|discriminate]|]. cbv zeta. rewrite T. intros G. injection G as <- _. exact C. }
  match type of E with match ?X with _ => _ end = _ => destruct X as [[y q]|] eqn:S; [|discriminate] end.
  destruct (get_chars n q) as [[u v]|] eqn:R; [|discriminate]. injection E as <- _.
  constructor; [exact (G _ _ eq_refl)|exact (IH _ _ _ R)].
Qed.

Lemma values_utf8 : forall n,
  (forall s j r, get_value n s = Some (j, r) -> json_utf8 j) /\
  (forall s l r, get_elements n s = Some (l, r) -> Forall json_utf8 l) /\
  (forall s l r, get_members n s = Some (l, r) -> Forall (fun kv => utf8 (fst kv) /\ json_utf8 (snd kv)) l).
Proof.
  induction n as [|n (IV & IE & IM)]; [repeat split; discriminate|]. split; [|split].
  - intros s j r E. cbn [get_value] in E. destruct (skip_space s) as [|c s1]; [discriminate|].
    destruct (Ascii.eqb c """").
    { destruct (get_chars (String.length s1) s1) as [[x q]|] eqn:G; [|discriminate]. injection E as <- _.
      intros y [<-|[]]. exact (chars_utf8 _ _ _ _ G). }
    destruct (Ascii.eqb c "[").
    { destruct (next_is "]" s1); [injection E as <- _; intros y []|].
      destruct (get_elements n s1) as [[l q]|] eqn:G; [|discriminate]. injection E as <- _. apply IE in G.
      intros y I. cbn [json_strings] in I. apply in_flat_map in I as (k & K & I). rewrite Forall_forall in G. exact (G k K y I). }
    destruct (Ascii.eqb c "{").
    { destruct (next_is "}" s1); [injection E as <- _; intros y []|].
      destruct (get_members n s1) as [[l q]|] eqn:G; [|discriminate]. injection E as <- _. apply IM in G.
      intros y I. cbn [json_strings] in I. apply in_flat_map in I as (k & K & I). rewrite Forall_forall in G.
      destruct (G k K) as [A B]. destruct I as [<-|I]; [exact A|exact (B y I)]. }
    destruct (Ascii.eqb c "n"); [destruct (get_word "null" (String c s1)); [|discriminate]; injection E as <- _; intros y []|].
    destruct (Ascii.eqb c "t"); [destruct (get_word "true" (String c s1)); [|discriminate]; injection E as <- _; intros y []|].
    destruct (Ascii.eqb c "f"); [destruct (get_word "false" (String c s1)); [|discriminate]; injection E as <- _; intros y []|].
    destruct (get_number (String c s1)); [|discriminate]. injection E as <- _. intros y [].
  - intros s l r E. cbn [get_elements] in E. destruct (get_value n s) as [[j q]|] eqn:V; [|discriminate]. apply IV in V.
    destruct (next_is "," q) as [q'|].
    + destruct (get_elements n q') as [[l' r']|] eqn:G; [|discriminate]. injection E as <- _. apply IE in G. now constructor.
    + destruct (next_is "]" q); [|discriminate]. injection E as <- _. now repeat constructor.
  - intros s l r E. cbn [get_members] in E. destruct (next_is """" s) as [s1|]; [|discriminate].
    destruct (get_chars (String.length s1) s1) as [[k s2]|] eqn:K; [|discriminate]. apply chars_utf8 in K.
    destruct (next_is ":" s2) as [s3|]; [|discriminate].
    destruct (get_value n s3) as [[j q]|] eqn:V; [|discriminate]. apply IV in V.
    destruct (next_is "," q) as [q'|].
    + destruct (get_members n q') as [[l' r']|] eqn:G; [|discriminate]. injection E as <- _. apply IM in G. now repeat constructor.
    + destruct (next_is "}" q); [|discriminate]. injection E as <- _. repeat constructor; assumption.
Qed.
Lemma read_utf8 : forall s j, read_text s = Some j -> json_utf8 j.
Proof.
  intros s j. unfold read_text. destruct (get_value (String.length s) s) as [[j' r]|] eqn:G; [|discriminate].
  destruct (skip_space r); [|discriminate]. destruct (N.leb _ _); [|discriminate].
  intros E. injection E as <-. exact (proj1 (values_utf8 _) _ _ _ G).
Qed.

(** ** Decoding keeps the strings *)
Lemma utf8_obj : forall l k j, json_utf8 (JObj l) -> In (k, j) l -> json_utf8 j.
Proof.
  intros l k j H I x X. apply H. cbn [json_strings]. apply in_flat_map. exists (k, j). split; [exact I|]. now right.
Qed.
Lemma utf8_arr : forall l j, json_utf8 (JArr l) -> In j l -> json_utf8 j.
Proof. intros l j H I x X. apply H. cbn [json_strings]. apply in_flat_map. eauto. Qed.
Lemma dec_members_keep : forall A (P : A -> Prop) (f : A -> string -> json -> option A),
  (forall a k j a', json_utf8 j -> P a -> f a k j = Some a' -> P a') ->
  forall l a a', json_utf8 (JObj l) -> P a -> dec_members f a l = Some a' -> P a'.
Proof.
  intros A P f H l. induction l as [|[k j] l IH]; intros a a' U Pa E; cbn in E; [now inversion E; subst|].
  destruct (f a k j) as [b|] eqn:F; [|discriminate]. refine (IH b a' _ (H _ _ _ _ _ Pa F) E).
  - intros x X. apply U. cbn [json_strings flat_map]. apply in_or_app. now right.
  - apply (utf8_obj _ k j U). now left.
Qed.
Lemma dec_obj_keep : forall A (P : A -> Prop) (f : A -> string -> json -> option A) zero,
  (forall a k j a', json_utf8 j -> P a -> f a k j = Some a' -> P a') -> P zero ->
  forall j a, json_utf8 j -> dec_obj f zero j = Some a -> P a.
Proof.
  intros A P f zero H Z j a U E. unfold dec_obj in E. destruct j; try discriminate.
  exact (dec_members_keep A P f H _ _ _ U Z E).
Qed.
Lemma dec_list_keep : forall A (P : A -> Prop) (f : json -> option A), (forall j a, json_utf8 j -> f j = Some a -> P a) ->
  forall l r, json_utf8 (JArr l) -> dec_list f l = Some r -> Forall P r.
Proof.
  intros A P f H l. induction l as [|j l IH]; intros r U E; cbn in E; [inversion E; constructor|].
  destruct (f j) as [a|] eqn:F; [|discriminate]. destruct (dec_list f l) as [r'|]; [|discriminate]. inversion E; subst.
  constructor; [|apply IH; [|reflexivity]].
  - apply (H j a); [apply (utf8_arr _ j U); now left|exact F].
  - intros x X. apply U. cbn [json_strings flat_map]. apply in_or_app. now right.
Qed.
Lemma dec_arr_keep : forall A (P : A -> Prop) (f : json -> option A), (forall j a, json_utf8 j -> f j = Some a -> P a) ->
  forall j r, json_utf8 j -> dec_arr f j = Some r -> Forall P r.
Proof.
  intros A P f H j r U E. destruct j; try discriminate; [inversion E; constructor|]. exact (dec_list_keep A P f H l r U E).
Qed.
Lemma dec_str_keep : forall old j x, json_utf8 j -> utf8 old -> dec_str old j = Some x -> utf8 x.
Proof.
  intros old j x U O E. destruct j; try discriminate; cbn in E; inversion E; subst; [exact O|]. apply U. now left.
Qed.
Lemma dec_string_elem_keep : forall j x, json_utf8 j -> dec_string_elem j = Some x -> utf8 x.
Proof.
  intros j x U E. destruct j; try discriminate; cbn in E; inversion E; subst; [constructor|]. apply U. now left.
Qed.

(** ** Octopus schemas *)
Definition strings_utf8 (l : list string) : Prop := forall x, In x l -> utf8 x.
Lemma utf8_app : forall a b, strings_utf8 (a ++ b) <-> strings_utf8 a /\ strings_utf8 b.
Proof.
  intros a b. unfold strings_utf8. split.
  - intros H. split; intros x X; apply H; apply in_or_app; auto.
  - intros [A B] x X. apply in_app_or in X as [X|X]; auto.
Qed.
Lemma utf8_list_cons : forall a b, strings_utf8 (a :: b) <-> utf8 a /\ strings_utf8 b.
Proof.
  intros a b. unfold strings_utf8. split.
  - intros H. split; [apply H; now left|intros x X; apply H; now right].
  - intros [A B] x [<-|X]; auto.
Qed.
Lemma utf8_list_nil : strings_utf8 [].
Proof. intros x []. Qed.
Lemma utf8_flat : forall A (f : A -> list string) l, strings_utf8 (flat_map f l) <-> Forall (fun x => strings_utf8 (f x)) l.
Proof.
  intros A f l. rewrite Forall_forall. unfold strings_utf8. split.
  - intros H y Y x X. apply H. apply in_flat_map. eauto.
  - intros H x X. apply in_flat_map in X as (y & Y & X). exact (H y Y x X).
Qed.
Lemma utf8_forall : forall l, strings_utf8 l <-> Forall utf8 l.
Proof. intros l. rewrite Forall_forall. reflexivity. Qed.

Ltac decoded := 
  repeat match goal with |- context [if key_is ?a ?k then _ else _] => destruct (key_is a k) end; let E0 := fresh "E0" in intros E0;
    try (match type of E0 with option_map _ ?x = _ => destruct x eqn:D end; [|discriminate]);
    injection E0 as <-.

Lemma ref_utf8 : forall j r, json_utf8 j -> dec_ref j = Some r -> strings_utf8 (ref_strings r).
Proof.
  intros j r U E. assert (G : forall x, dec_obj ref_member (mkRef "" "" "") j = Some x -> strings_utf8 (ref_strings (Some x))).
  { intros x. apply (dec_obj_keep _ (fun x => strings_utf8 (ref_strings (Some x)))); [|cbn; repeat (apply utf8_list_cons; split; [constructor|]); exact utf8_list_nil|exact U].
    intros [a b c] k y a' Uy. cbn [ref_strings ref_table ref_column ref_rel]. rewrite !utf8_list_cons. intros (A & B & C & _). unfold ref_member.
    cbn [ref_strings ref_table ref_column ref_rel]. decoded; cbn [ref_strings ref_table ref_column ref_rel]; rewrite ?utf8_list_cons;
      repeat split; try assumption; try exact utf8_list_nil; refine (dec_str_keep _ _ _ Uy _ D); assumption. }
  destruct j; try discriminate; cbn [dec_ref] in E; [injection E as <-; exact utf8_list_nil|].
  destruct (dec_obj _ _ _) as [x|]; [|discriminate]. injection E as <-. now apply G.
Qed.
Lemma column_utf8 : forall j c, json_utf8 j -> dec_column j = Some c -> strings_utf8 (column_strings c).
Proof.
  intros j c U. unfold dec_column. apply (dec_obj_keep _ (fun c => strings_utf8 (column_strings c))); [| |exact U].
  - intros [n t d sz sc nn pk uq ai df ou vs rf] k y c' Uy. unfold column_strings. cbn [c_name c_type c_desc c_default c_onupdate c_values c_ref].
    rewrite !utf8_app, !utf8_list_cons. intros ((A1 & A2 & A3 & A4 & A5 & _) & A6 & A7). unfold col_member.
    decoded; cbn [c_name c_type c_desc c_default c_onupdate c_values c_ref]; rewrite ?utf8_app, ?utf8_list_cons;
      repeat split; try assumption; try exact utf8_list_nil;
      first [refine (dec_str_keep _ _ _ Uy _ D); assumption|exact (ref_utf8 _ _ Uy D)
            |apply utf8_forall; exact (dec_arr_keep _ utf8 _ dec_string_elem_keep _ _ Uy D)].
  - cbn. repeat (apply utf8_list_cons; split; [constructor|]). exact utf8_list_nil.
Qed.
Lemma index_utf8 : forall j i, json_utf8 j -> dec_index j = Some i -> strings_utf8 (ix_name i :: ix_cols i).
Proof.
  intros j i U. unfold dec_index. apply (dec_obj_keep _ (fun i => strings_utf8 (ix_name i :: ix_cols i))); [| |exact U].
  - intros [n cs] k y i' Uy. cbn [ix_name ix_cols]. rewrite utf8_list_cons. intros (A & B). unfold idx_member. cbn [ix_name ix_cols].
    decoded; cbn [ix_name ix_cols]; rewrite ?utf8_list_cons; split; try assumption;
      first [refine (dec_str_keep _ _ _ Uy _ D); assumption
            |apply utf8_forall; exact (dec_arr_keep _ utf8 _ dec_string_elem_keep _ _ Uy D)].
  - cbn. apply utf8_list_cons. split; [constructor|exact utf8_list_nil].
Qed.
Lemma table_utf8 : forall j t, json_utf8 j -> dec_table j = Some t -> strings_utf8 (table_strings t).
Proof.
  intros j t U. unfold dec_table. apply (dec_obj_keep _ (fun t => strings_utf8 (table_strings t))); [| |exact U].
  - intros [n cs d g cl ix] k y t' Uy. unfold table_strings. cbn [t_name t_desc t_group t_class t_cols t_indices].
    rewrite !utf8_app, !utf8_list_cons, !utf8_flat. intros ((A1 & A2 & A3 & A4 & _) & A5 & A6). unfold tbl_member.
    decoded; cbn [t_name t_desc t_group t_class t_cols t_indices]; rewrite ?utf8_app, ?utf8_list_cons, ?utf8_flat;
      repeat split; try assumption; try exact utf8_list_nil;
      first [refine (dec_str_keep _ _ _ Uy _ D); assumption
            |exact (dec_arr_keep _ _ _ column_utf8 _ _ Uy D)
            |exact (dec_arr_keep _ _ _ index_utf8 _ _ Uy D)].
  - cbn. repeat (apply utf8_list_cons; split; [constructor|]). exact utf8_list_nil.
Qed.
Lemma schema_of_utf8 : forall j s, json_utf8 j -> from_json j = Some s -> schema_utf8 s.
Proof.
  intros j s U E. change (strings_utf8 (schema_strings s)).
  assert (Z : strings_utf8 (schema_strings (mkSchema "" "" "" []))).
  { cbn. repeat (apply utf8_list_cons; split; [constructor|]). exact utf8_list_nil. }
  assert (G : dec_obj sch_member (mkSchema "" "" "" []) j = Some s -> strings_utf8 (schema_strings s)).
  { apply (dec_obj_keep _ (fun s => strings_utf8 (schema_strings s))); [|exact Z|exact U].
    intros [a n v ts] k y s' Uy. unfold schema_strings. cbn [s_author s_name s_version s_tables].
    rewrite !utf8_app, !utf8_list_cons, !utf8_flat. intros ((A1 & A2 & A3 & _) & A4). unfold sch_member.
    decoded; cbn [s_author s_name s_version s_tables]; rewrite ?utf8_app, ?utf8_list_cons, ?utf8_flat;
      repeat split; try assumption; try exact utf8_list_nil;
      first [refine (dec_str_keep _ _ _ Uy _ D); assumption
            |exact (dec_arr_keep _ _ _ table_utf8 _ _ Uy D)]. }
  unfold from_json in E. destruct j; try exact (G E). injection E as <-. exact Z.
Qed.

(** ** Normalize keeps them *)
Lemma lower_character : forall x, character x -> character (to_lower x).
Proof.
  intros x C. destruct (character_shape x C) as [(a & -> & B)|(L & _)].
  - cbn [to_lower string_map]. apply ch_1. unfold byte in *. revert B. destruct a as [[] [] [] [] [] [] [] []]; vm_compute; intros [A B];
      first [exfalso; apply B; reflexivity|split; discriminate].
  - assert (E : to_lower x = x).
    { destruct C as [a B| | | | | | | |]; [cbn in L; lia|..]; unfold to_lower; cbn [string_map];
        repeat match goal with H : byte _ _ ?c |- _ =>
          lazymatch goal with K : lower_ascii c = c |- _ => fail | _ =>
            assert (lower_ascii c = c) by (revert H; clear; unfold byte; destruct c as [[] [] [] [] [] [] [] []]; vm_compute; intros [A B];
              first [reflexivity|exfalso; apply A; reflexivity|exfalso; apply B; reflexivity]) end end; congruence. }
    now rewrite E.
Qed.

Lemma lower_utf8 : forall s, utf8 s -> utf8 (to_lower s).
Proof.
  induction 1 as [|x s C U IH]; [constructor|]. rewrite to_lower_app. constructor; [now apply lower_character|exact IH].
Qed.
Lemma normalized_type_utf8 : forall t, utf8 t -> utf8 (to_normalized_type t).
Proof.
  intros t U. unfold to_normalized_type.
  repeat match goal with |- utf8 (if ?b then _ else _) => destruct b; [apply utf8_ascii; reflexivity|] end. exact U.
Qed.
Lemma validated_strings : forall b c, column_strings (fst (validate b c)) = column_strings c.
Proof.
  intros b c. unfold validate. repeat match goal with |- context [if ?b then _ else _] => destruct b end; reflexivity.
Qed.
Lemma normalized_col_utf8 : forall c, strings_utf8 (column_strings c) ->
  strings_utf8 (column_strings (fst (validate true (normalize_type c)))).
Proof.
  intros c. rewrite validated_strings. unfold column_strings, normalize_type. cbn [with_type c_name c_type c_desc c_default c_onupdate c_values c_ref].
  rewrite !utf8_app, !utf8_list_cons. intros ((A1 & A2 & A3 & A4 & A5 & A0) & A6 & A7). repeat split; try assumption.
  now apply normalized_type_utf8, lower_utf8.
Qed.
Lemma normalized_cols_utf8 : forall cs, Forall (fun c => strings_utf8 (column_strings c)) cs ->
  Forall (fun c => strings_utf8 (column_strings c)) (fst (normalize_cols cs)).
Proof.
  induction 1 as [|c cs U F IH]; [constructor|]. cbn [normalize_cols]. apply normalized_col_utf8 in U.
  destruct (validate true (normalize_type c)) as [c' [e|]]; cbn [fst] in *; [now constructor|].
  destruct (normalize_cols cs) as [r e]; cbn [fst] in *. now constructor.
Qed.
Lemma with_cols_utf8 : forall t cs, strings_utf8 (table_strings t) -> Forall (fun c => strings_utf8 (column_strings c)) cs ->
  strings_utf8 (table_strings (with_cols t cs)).
Proof.
  intros t cs. unfold table_strings. cbn [with_cols t_name t_desc t_group t_class t_cols t_indices].
  rewrite !utf8_app, !utf8_flat. tauto.
Qed.
Lemma normalized_tables_utf8 : forall ts, Forall (fun t => strings_utf8 (table_strings t)) ts ->
  Forall (fun t => strings_utf8 (table_strings t)) (fst (normalize_tables ts)).
Proof.
  induction 1 as [|t ts U F IH]; [constructor|]. cbn [normalize_tables].
  assert (C : Forall (fun c => strings_utf8 (column_strings c)) (fst (normalize_cols (t_cols t)))).
  { apply normalized_cols_utf8. unfold table_strings in U. rewrite !utf8_app, !utf8_flat in U. apply U. }
  destruct (normalize_cols (t_cols t)) as [cs [e|]]; cbn [fst] in *.
  - constructor; [now apply with_cols_utf8|exact F].
  - destruct (normalize_tables ts) as [r e]; cbn [fst] in *. constructor; [now apply with_cols_utf8|exact IH].
Qed.
Lemma loaded_utf8 : forall sortf s, sorts_tables sortf -> schema_utf8 s -> schema_utf8 (load_schema_decoded sortf s).
Proof.
  intros sortf s Hs U. change (strings_utf8 (schema_strings (load_schema_decoded sortf s))). change (strings_utf8 (schema_strings s)) in U.
  unfold load_schema_decoded, normalize. unfold schema_strings in U. rewrite utf8_app, utf8_flat in U. destruct U as [A B].
  assert (B' : Forall (fun t => strings_utf8 (table_strings t)) (sortf (s_tables s))).
  { rewrite Forall_forall in *. intros t T. apply B. exact (Permutation_in t (proj1 (Hs _)) T). }
  apply normalized_tables_utf8 in B'. destruct (normalize_tables (sortf (s_tables s))) as [ts e]. cbn [fst with_tables] in *.
  unfold schema_strings. cbn [s_author s_name s_version s_tables with_tables]. rewrite utf8_app, utf8_flat. now split.
Qed.
