(** Reading the exporter's text gives back what the tables mean *)
From Coq Require Import String Ascii List NArith ZArith Bool Lia.
From Verif.Model Require Import GoString Util Octopus Mysql.
From Verif.Spec Require Import Text MysqlGrammar MysqlSpec.
From Verif.Proofs Require Import StringLemmas MysqlLex MysqlTypes.
Import ListNotations.
Local Open Scope string_scope.
Local Open Scope list_scope.

(** ** Parts separated by blanks *)

Lemma join_space : forall parts toks, Forall2 lexes parts toks -> parts <> [] -> lexes (join " " parts) (concat toks).
Proof.
  intros parts toks H. induction H as [|p t ps ts Hp H IH]; intros Hn; [congruence|].
  destruct H as [|q u ps ts Hq H].
  - simpl. now rewrite app_nil_r.
  - cbn [join concat]. apply space_join; [exact Hp|]. apply IH. discriminate.
Qed.

Lemma join_flat : forall sep a b l, l <> [] -> join sep (a :: b :: [join sep l]) = join sep (a :: b :: l).
Proof. intros sep a b [|x l] H; [congruence|]. cbn [join]. reflexivity. Qed.

Lemma join_nil : forall sep l, (forall x, In x l -> x <> "") -> join sep l = "" -> l = [].
Proof.
  intros sep [|x [|y l]] H E; auto.
  - exfalso. apply (H x); [now left|exact E].
  - exfalso. cbn [join] in E. destruct x; [now apply (H "" (or_introl eq_refl))|discriminate].
Qed.

(** ** Values *)

Definition char_type (ty : string) : bool := String.eqb ty "char" || String.eqb ty "varchar".

Lemma string_type_valid : forall ty, In ty col_types -> is_string_type ty = char_type ty.
Proof.
  intros ty H. unfold col_types in H. cbn [In] in H.
  repeat (destruct H as [<-|H]; [reflexivity|]). destruct H.
Qed.

Lemma char_type_false : forall ty, ty <> "char" -> ty <> "varchar" -> char_type ty = false.
Proof. intros ty A B. unfold char_type. apply String.eqb_neq in A, B. now rewrite A, B. Qed.

Lemma no_fn_prefix : forall c s, c <> "f"%char -> get_value (String c s) = (String c s, false).
Proof. intros c s H. unfold get_value, has_prefix, fn_prefix. cbn [String.prefix]. destruct (ascii_dec "f" c); [congruence|reflexivity]. Qed.

Lemma digit_not_f : forall c, is_digit c = true -> c <> "f"%char.
Proof. intros c H ->. vm_compute in H. discriminate. Qed.

Lemma digits_word : forall s, digits s -> lexes s [TWord s].
Proof. intros s [H1 H2]. apply word_token; auto. intros c Hc. now apply digit_word, H2. Qed.

Lemma digits_is : forall s, digits s -> is_digits s = true.
Proof.
  intros s [H1 H2]. unfold is_digits. rewrite (forallb_all_chars is_digit s H2). simpl.
  apply String.eqb_neq in H1. now rewrite H1.
Qed.

(** the first character of lower case words *)
Lemma lower_digit : forall c, is_digit c = true -> lower_ascii c = c.
Proof. intros [[] [] [] [] [] [] [] []] H; try reflexivity; vm_compute in H; discriminate. Qed.

Lemma digits_kw : forall s k, digits s -> (match k with EmptyString => True | String c _ => is_digit c = false end) ->
  to_lower s <> k.
Proof.
  intros [|c s] k [H1 H2] Hk E; [congruence|]. unfold to_lower in E. cbn [string_map] in E.
  rewrite lower_digit in E by (apply H2; now left). subst k. rewrite (H2 c) in Hk by now left. discriminate.
Qed.

Lemma digits_not_now : forall s, digits s -> str_in (to_lower s) now_words = false.
Proof.
  intros s H. apply str_in_false. unfold now_words. cbn [In]. intros X.
  repeat (destruct X as [X|X]; [symmetry in X; revert X; now apply digits_kw|]). destruct X.
Qed.

Lemma digits_not_kw : forall s k, digits s -> (match k with EmptyString => True | String c _ => is_digit c = false end) ->
  kw s k = false.
Proof. intros s k H Hk. apply String.eqb_neq. now apply digits_kw. Qed.

Lemma together_toks : forall ts, (forall c, ~ In (TSym c) ts) -> together ts.
Proof.
  induction ts as [|t ts IH]; intros H; [apply together_nil|].
  apply (together_app [t]); [|apply IH; intros c Hc; apply (H c); now right].
  apply together_plain. intros c ->. apply (H c). now left.
Qed.

Lemma value_reads : forall ty v e, In ty col_types -> plain_value ty v e ->
  v <> "" /\
  exists ts, lexes (value_text ty (get_value v)) ts /\ together ts /\
    forall r, no_sym r -> read_default (ts ++ r) = Some (e, r).
Proof.
  intros ty v e HT H. destruct H as [f Hn Hc|v Ht Hv Hp Hf|v n H1 H2 Hd Hn|a b H1 H2 Ha Hb|v H1 H2 Hl].
  - split; [discriminate|]. exists [TWord f; TSym "("; TSym ")"].
    unfold get_value, has_prefix, fn_prefix. rewrite prefix_app.
    change (string_drop 4 ("fn::" ^ f)) with f. unfold value_text. cbn [fst snd].
    assert (Hf : f <> ""). { intros ->. unfold now_name in Hn. cbn in Hn. intuition discriminate. }
    split; [|split].
    + change [TWord f; TSym "("; TSym ")"] with ([TWord f] ++ [TSym "("; TSym ")"]).
      apply lexes_app; [now apply word_token|discriminate|reflexivity|].
      apply any_lexes. change "()" with ("(" ^ "" ^ ")"). apply (paren_lexes "" []). apply any_lexes, lexes_nil.
    + apply (together_app [TWord f]); [apply together_plain; discriminate|]. apply (together_paren []). intros c [].
    + intros r Hr. cbn [app read_default]. unfold now_name in Hn.
      assert (N1 : kw f "null" = false).
      { unfold kw. apply String.eqb_neq. intros E. rewrite E in Hn. cbn in Hn. intuition discriminate. }
      rewrite N1. unfold read_now. apply str_in_iff in Hn. rewrite Hn. reflexivity.
  - split; [exact Hv|]. exists [TText v]. unfold get_value, has_prefix, fn_prefix. rewrite Hf. unfold value_text. cbn [fst snd].
    replace (is_string_type ty) with true.
    2:{ destruct Ht; subst ty; reflexivity. }
    split; [now apply text_token|]. split; [apply together_plain; discriminate|]. reflexivity.
  - assert (Hne : v <> "") by (destruct Hd; auto). split; [exact Hne|]. exists [TWord v].
    destruct v as [|c v]; [congruence|]. rewrite no_fn_prefix by (apply digit_not_f, Hd; now left).
    unfold value_text. cbn [fst snd]. rewrite string_type_valid, char_type_false by assumption.
    split; [now apply digits_word|]. split; [apply together_plain; discriminate|].
    intros r Hr. cbn [app read_default]. rewrite digits_not_kw by (auto; reflexivity).
    unfold read_now. rewrite digits_not_now by assumption. unfold read_number. rewrite digits_is by assumption. rewrite Hn.
    destruct r as [|[] r]; try reflexivity. destruct Hr.
  - assert (Hne : a <> "") by (destruct Ha; auto). split.
    { destruct a; [congruence|discriminate]. }
    exists [TWord a; TSym "."; TWord b].
    assert (Hg : get_value (a ^ "." ^ b) = (a ^ "." ^ b, false)).
    { destruct a as [|c a]; [congruence|]. cbn [String.append]. apply no_fn_prefix, digit_not_f, Ha. now left. }
    rewrite Hg. unfold value_text. cbn [fst snd]. rewrite string_type_valid, char_type_false by assumption. split; [|split].
    + change [TWord a; TSym "."; TWord b] with ([TWord a] ++ [TSym "."] ++ [TWord b]).
      apply lexes_app; [now apply digits_word|discriminate|reflexivity|].
      change ("." ^ b) with (chr "." ^ b). apply lexes_any_app; [now apply sym_token|now apply digits_word].
    + split; [|intros [X|[X|[X|[]]]]; discriminate]. intros d r. cbn.
      destruct (split_parts d r) as [[[|z zs] rest]|]; reflexivity.
    + intros r Hr. cbn [app read_default]. rewrite digits_not_kw by (auto; reflexivity).
      unfold read_now. rewrite digits_not_now by assumption. unfold read_number.
      rewrite !digits_is by assumption. reflexivity.
  - assert (Hw : lexes v [TWord v] /\ v <> "" /\ get_value v = (v, false)).
    { destruct v as [|c0 [|c1 [|c2 [|c3 [|c4 v]]]]]; try discriminate Hl.
      unfold to_lower in Hl. cbn [string_map] in Hl. injection Hl as E0 E1 E2 E3.
      assert (W : forall c d, lower_ascii c = d -> is_lower d = true -> is_word_char c = true).
      { intros [[] [] [] [] [] [] [] []] d <- Hd; vm_compute in Hd; try discriminate; reflexivity. }
      split; [|split; [discriminate|]].
      - apply word_token; [discriminate|]. intros c Hc. cbn [char_in] in Hc.
        destruct Hc as [->|[->|[->|[->|[]]]]]; eapply W; eauto; reflexivity.
      - apply no_fn_prefix. intros ->. vm_compute in E0. discriminate. }
    destruct Hw as [W1 [W2 W3]]. split; [exact W2|]. exists [TWord v]. rewrite W3. unfold value_text. cbn [fst snd].
    rewrite string_type_valid, char_type_false by assumption. split; [exact W1|]. split; [apply together_plain; discriminate|].
    intros r Hr. cbn [app read_default]. unfold kw. rewrite Hl. reflexivity.
Qed.

Lemma update_reads : forall ty f, In ty col_types -> now_name f -> all_chars (fun c => is_word_char c = true) f ->
  exists ts, lexes (value_text ty (get_value ("fn::" ^ f))) ts /\ together ts /\
    forall r, read_now (ts ++ r) = Some (EFunc "CURRENT_TIMESTAMP", r).
Proof.
  intros ty f HT Hn Hc. exists [TWord f; TSym "("; TSym ")"].
  unfold get_value, has_prefix, fn_prefix. rewrite prefix_app.
  change (string_drop 4 ("fn::" ^ f)) with f. unfold value_text. cbn [fst snd].
  assert (Hf : f <> ""). { intros ->. unfold now_name in Hn. cbn in Hn. intuition discriminate. }
  split; [|split].
  - change [TWord f; TSym "("; TSym ")"] with ([TWord f] ++ [TSym "("; TSym ")"]).
    apply lexes_app; [now apply word_token|discriminate|reflexivity|].
    apply any_lexes. change "()" with ("(" ^ "" ^ ")"). apply (paren_lexes "" []). apply any_lexes, lexes_nil.
  - apply (together_app [TWord f]); [apply together_plain; discriminate|]. apply (together_paren []). intros c [].
  - intros r. unfold now_name in Hn. apply str_in_iff in Hn. cbn [app]. unfold read_now. rewrite Hn. reflexivity.
Qed.

(** ** Options *)

Definition starts_word (ts : list tok) : Prop := match ts with TWord _ :: _ => True | _ => False end.

Record opt_reads (s : string) (ts : list tok) (o : col_option) : Prop := {
  or_lex : lexes s ts; or_word : starts_word ts; or_tog : together ts;
  or_read : forall n r, no_sym r -> read_options (S n) (ts ++ r) = option_map (cons o) (read_options n r);
  or_some : s <> ""
}.

Inductive all_opts : list string -> list (list tok) -> list col_option -> Prop :=
| ao_nil : all_opts [] [] []
| ao_cons : forall s ts o ss tss os, opt_reads s ts o -> all_opts ss tss os -> all_opts (s :: ss) (ts :: tss) (o :: os).

Lemma all_opts_app : forall s1 t1 o1 s2 t2 o2, all_opts s1 t1 o1 -> all_opts s2 t2 o2 ->
  all_opts (s1 ++ s2) (t1 ++ t2) (o1 ++ o2).
Proof. intros s1 t1 o1 s2 t2 o2 H1 H2. induction H1; simpl; auto. constructor; auto. Qed.

Lemma all_opts_lex : forall ss tss os, all_opts ss tss os -> Forall2 lexes ss tss.
Proof. intros ss tss os H. induction H; constructor; auto. apply H. Qed.

Lemma all_opts_tog : forall ss tss os, all_opts ss tss os -> together (concat tss).
Proof.
  intros ss tss os H. induction H; simpl; [apply together_nil|]. apply together_app; auto. apply H.
Qed.

Lemma all_opts_nosym : forall ss tss os, all_opts ss tss os -> no_sym (concat tss).
Proof.
  intros ss tss os H. destruct H; simpl; [exact I|]. destruct H as [_ W _ _ _]. destruct ts as [|[] ts]; simpl in *; tauto.
Qed.

Lemma all_opts_read : forall ss tss os n, all_opts ss tss os -> length os <= n -> read_options n (concat tss) = Some os.
Proof.
  intros ss tss os n H. revert n. induction H as [|s ts o ss tss os H1 H2 IH]; intros n Hn.
  - destruct n; reflexivity.
  - simpl in Hn. destruct n as [|n]; [lia|]. cbn [concat]. rewrite (or_read _ _ _ H1) by (eapply all_opts_nosym; eauto).
    rewrite IH by lia. reflexivity.
Qed.

Lemma all_opts_length : forall ss tss os, all_opts ss tss os -> length os <= length (concat tss).
Proof.
  intros ss tss os H. induction H as [|s ts o ss tss os H1 H2 IH]; simpl; [lia|].
  rewrite app_length. destruct H1 as [_ W _ _ _]. destruct ts; simpl in *; [tauto|lia].
Qed.

Lemma all_opts_if : forall (b : bool) s ts o, (b = true -> opt_reads s ts o) ->
  all_opts (if b then [s] else []) (if b then [ts] else []) (if b then [o] else []).
Proof. intros [] s ts o H; constructor; auto. constructor. Qed.

Lemma fixed2 : forall a b, lexes a [TWord a] -> lexes b [TWord b] -> lexes (a ^ " " ^ b) [TWord a; TWord b].
Proof. intros a b Ha Hb. now apply (space_join a b [TWord a] [TWord b]). Qed.

Lemma options_read : forall c, In (c_type c) col_types -> plain_text (c_desc c) ->
  (exists ds, default_means c ds) -> (exists us, update_means c us) ->
  exists tss os, all_opts (column_constraint_list c) tss os /\
    exists ds us, default_means c ds /\ update_means c us /\
    os = ((if c_notnull c then [ONotNull] else []) ++ (if c_autoinc c then [OAutoIncrement] else []) ++
          ds ++ us ++ (if String.eqb (c_desc c) "" then [] else [OComment (c_desc c)])).
Proof.
  intros c HT HC [ds Hd] [us Hu]. unfold column_constraint_list.
  assert (A1 : all_opts (if c_notnull c then ["NOT NULL"] else []) (if c_notnull c then [[TWord "NOT"; TWord "NULL"]] else [])
                 (if c_notnull c then [ONotNull] else [])).
  { apply all_opts_if. intros _. constructor; try exact I; try discriminate.
    - apply (fixed2 "NOT" "NULL"); fixed_word.
    - apply together_toks. intros x [X|[X|[]]]; discriminate.
    - reflexivity. }
  assert (A2 : all_opts (if c_autoinc c then ["AUTO_INCREMENT"] else []) (if c_autoinc c then [[TWord "AUTO_INCREMENT"]] else [])
                 (if c_autoinc c then [OAutoIncrement] else [])).
  { apply all_opts_if. intros _. constructor; try exact I; try discriminate.
    - fixed_word.
    - apply together_plain. discriminate.
    - reflexivity. }
  assert (A3 : exists ts, all_opts (if negb (String.eqb (c_default c) "")
      then ["DEFAULT " ^ value_text (c_type c) (get_default_value c)] else []) ts ds).
  { destruct Hd as [E|e He].
    - exists []. rewrite E. constructor.
    - destruct (value_reads _ _ _ HT He) as [N [ts [L [T R]]]]. exists [TWord "DEFAULT" :: ts].
      apply String.eqb_neq in N. rewrite N. cbn [negb]. constructor; [|constructor]. constructor; try exact I; try discriminate.
      + apply (space_join "DEFAULT" _ [TWord "DEFAULT"] ts); [fixed_word|exact L].
      + apply (together_app [TWord "DEFAULT"]); [apply together_plain; discriminate|exact T].
      + intros n r Hr. cbn [app read_options]. change (kw "DEFAULT" "not") with false. change (kw "DEFAULT" "null") with false.
        change (kw "DEFAULT" "auto_increment") with false. change (kw "DEFAULT" "default") with true. cbv iota.
        now rewrite R. }
  assert (A4 : exists ts, all_opts (if negb (String.eqb (c_onupdate c) "")
      then ["ON UPDATE " ^ value_text (c_type c) (get_on_update c)] else []) ts us).
  { destruct Hu as [E|f E Hn Hf].
    - exists []. rewrite E. constructor.
    - unfold get_on_update. rewrite E. destruct (update_reads _ _ HT Hn Hf) as [ts [L [T R]]].
      exists [TWord "ON" :: TWord "UPDATE" :: ts]. cbn [String.append String.eqb negb]. constructor; [|constructor].
      constructor; try exact I; try discriminate.
      + apply (space_join "ON UPDATE" _ [TWord "ON"; TWord "UPDATE"] ts); [|exact L].
        apply (fixed2 "ON" "UPDATE"); fixed_word.
      + apply (together_app [TWord "ON"; TWord "UPDATE"]); [|exact T]. apply together_toks. intros x [X|[X|[]]]; discriminate.
      + intros n r Hr. cbn [app]. cbn [read_options].
        change (kw "ON" "not") with false. change (kw "ON" "null") with false.
        change (kw "ON" "auto_increment") with false. change (kw "ON" "default") with false.
        change (kw "ON" "on") with true. change (kw "UPDATE" "update") with true. cbv iota. now rewrite R. }
  assert (A5 : exists ts, all_opts (if negb (String.eqb (c_desc c) "") then ["COMMENT '" ^ c_desc c ^ "'"] else []) ts
                 (if String.eqb (c_desc c) "" then [] else [OComment (c_desc c)])).
  { destruct (String.eqb (c_desc c) ""); cbn [negb]; [exists []; constructor|].
    exists [[TWord "COMMENT"; TText (c_desc c)]]. constructor; [|constructor]. constructor; try exact I; try discriminate.
    - apply (space_join "COMMENT" ("'" ^ c_desc c ^ "'") [TWord "COMMENT"] [TText (c_desc c)]); [fixed_word|now apply text_token].
    - apply together_toks. intros x [X|[X|[]]]; discriminate.
    - reflexivity. }
  destruct A3 as [t3 A3], A4 as [t4 A4], A5 as [t5 A5].
  eexists. eexists. split; [|exists ds, us; split; [exact Hd|split; [exact Hu|reflexivity]]].
  apply all_opts_app; [exact A1|]. apply all_opts_app; [exact A2|]. apply all_opts_app; [exact A3|].
  apply all_opts_app; [exact A4|exact A5].
Qed.

(** ** Columns *)

Lemma column_definition_parts : forall c, (forall x, In x (column_constraint_list c) -> x <> "") ->
  column_definition c = join " " (c_name c :: to_mysql_column_type c :: column_constraint_list c).
Proof.
  intros c H. unfold column_definition, column_constraints. cbv zeta.
  destruct (column_constraint_list c) as [|x l] eqn:E; [reflexivity|].
  destruct (String.eqb (join " " (x :: l)) "") eqn:E2.
  - apply String.eqb_eq in E2. apply join_nil in E2; auto. discriminate.
  - exact (join_flat " " (c_name c) (to_mysql_column_type c) (x :: l) ltac:(discriminate)).
Qed.

Section Reserved.
Variable reserved : string -> bool.

Lemma ident_kw : forall w k, is_ident reserved w = true -> In k grammar_words -> kw w k = false.
Proof.
  intros w k H Hk. unfold kw. apply String.eqb_neq. intros E. destruct w as [|c w]; [discriminate|].
  cbn [is_ident] in H. apply andb_true_iff in H. destruct H as [H _]. apply andb_true_iff in H. destruct H as [_ H].
  rewrite E in H. apply (str_in_iff k grammar_words) in Hk. rewrite Hk in H. discriminate.
Qed.

Lemma ident_token : forall w, plain_ident reserved w -> lexes w [TWord w] /\ read_name reserved (TWord w) = Some w.
Proof.
  intros w [H1 H2]. split.
  - apply word_token; auto. intros ->. discriminate.
  - cbn [read_name]. now rewrite H2.
Qed.

Lemma column_reads : forall c, plain_column reserved c ->
  exists ts cd, lexes (column_definition c) ts /\ together ts /\ read_item reserved ts = Some (ItemColumn cd) /\ column_means c cd.
Proof.
  intros c [Hn HT HV HS Hd Hu HC].
  destruct (options_read c HT HC Hd Hu) as [tss [os [AO [ds [us [D [U Eo]]]]]]].
  destruct (type_reads c HT HV) as [tt [TL [TT TR]]].
  destruct (ident_token _ Hn) as [IL IR].
  destruct (sql_type c) as [ft|] eqn:Es; [|congruence].
  exists (TWord (c_name c) :: tt ++ concat tss), (mkColDef (c_name c) ft os).
  assert (NE : forall x, In x (column_constraint_list c) -> x <> "").
  { clear - AO. induction AO; [intros x []|]. intros x [<-|Hx]; [apply H|auto]. }
  split; [|split; [|split]].
  - rewrite column_definition_parts by exact NE.
    change (TWord (c_name c) :: tt ++ concat tss) with (concat ([TWord (c_name c)] :: tt :: tss)).
    apply join_space; [|discriminate]. constructor; [exact IL|]. constructor; [exact TL|]. eapply all_opts_lex; eauto.
  - apply (together_app [TWord (c_name c)]); [apply together_plain; discriminate|].
    apply together_app; [exact TT|]. eapply all_opts_tog; eauto.
  - destruct Hn as [_ Hi]. unfold read_item. rewrite !(ident_kw _ _ Hi) by (unfold grammar_words; cbn [In]; tauto).
    cbn [orb]. unfold read_column. rewrite IR. rewrite TR by (eapply all_opts_nosym; eauto). cbn [option_map].
    rewrite (all_opts_read _ _ _ _ AO) by (eapply all_opts_length; eauto). reflexivity.
  - split; [reflexivity|]. split; [exact Es|]. exists ds, us. auto.
Qed.

(** ** Keys *)

Lemma quoted_token : forall n, ~ char_in "`" n -> lexes (my_quote n) [TName n].
Proof. intros n H. unfold my_quote. now apply name_token. Qed.

Lemma key_list_reads : forall ks, ks <> [] -> Forall plain_quoted ks ->
  read_key_list reserved (comma_sep (fun k => [TName k]) ks ++ [TSym ")"]) = Some ks.
Proof.
  induction ks as [|k ks IH]; intros H F; [congruence|]. inversion F as [|? ? [P1 P2] F']; subst.
  assert (RN : read_name reserved (TName k) = Some k).
  { cbn [read_name]. apply String.eqb_neq in P1. now rewrite P1. }
  destruct ks as [|k2 ks].
  - cbn [comma_sep app read_key_list]. rewrite RN. reflexivity.
  - change (comma_sep (fun v => [TName v]) (k :: k2 :: ks)) with (TName k :: TSym "," :: comma_sep (fun v => [TName v]) (k2 :: ks)).
    cbn [app]. cbn [read_key_list]. rewrite RN. change (Ascii.eqb "," ")") with false. change (Ascii.eqb "," ",") with true.
    cbv iota. rewrite IH by (auto; discriminate). reflexivity.
Qed.

Definition key_toks (ks : list string) : list tok := TSym "(" :: comma_sep (fun k => [TName k]) ks ++ [TSym ")"].

Lemma keys_lex : forall ks, ks <> [] -> Forall plain_quoted ks ->
  lexes ("(" ^ join ", " (map my_quote ks) ^ ")") (key_toks ks).
Proof.
  intros ks H F. apply any_lexes, paren_lexes. apply join_lexes; auto. intros k Hk.
  apply quoted_token. rewrite Forall_forall in F. now apply F.
Qed.

Lemma keys_together : forall ks, together (key_toks ks).
Proof. intros ks. apply together_paren. apply no_paren_sep. intros x _ c [X|[]]. discriminate. Qed.

Lemma primary_reads : forall ks, ks <> [] -> Forall plain_quoted ks ->
  exists ts, lexes ("PRIMARY KEY (" ^ join ", " (map my_quote ks) ^ ")") ts /\ together ts /\
    read_item reserved ts = Some (ItemKey (KPrimaryKey ks)).
Proof.
  intros ks H F. exists (TWord "PRIMARY" :: TWord "KEY" :: key_toks ks). split; [|split].
  - apply (space_join "PRIMARY KEY" _ [TWord "PRIMARY"; TWord "KEY"]); [|now apply keys_lex].
    apply (fixed2 "PRIMARY" "KEY"); fixed_word.
  - apply (together_app [TWord "PRIMARY"; TWord "KEY"]); [|apply keys_together].
    apply together_toks. intros x [X|[X|[]]]; discriminate.
  - unfold read_item. change (kw "PRIMARY" "primary") with true. change (kw "KEY" "key") with true. cbv iota.
    unfold key_toks, read_keys. change (Ascii.eqb "(" "(") with true. cbv iota. rewrite key_list_reads by assumption. reflexivity.
Qed.

Lemma named_keys_read : forall n ks, plain_quoted n -> ks <> [] -> Forall plain_quoted ks ->
  read_named_keys reserved (TName n :: key_toks ks) = Some (n, ks).
Proof.
  intros n ks [N1 N2] H F. unfold read_named_keys. cbn [read_name]. apply String.eqb_neq in N1. rewrite N1.
  unfold key_toks, read_keys. change (Ascii.eqb "(" "(") with true. cbv iota. rewrite key_list_reads by assumption. reflexivity.
Qed.

Lemma unique_reads : forall n ks, plain_quoted n -> ks <> [] -> Forall plain_quoted ks ->
  exists ts, lexes ("UNIQUE KEY " ^ my_quote n ^ " (" ^ join ", " (map my_quote ks) ^ ")") ts /\ together ts /\
    read_item reserved ts = Some (ItemKey (KUniq n ks)).
Proof.
  intros n ks Hn H F. exists (TWord "UNIQUE" :: TWord "KEY" :: TName n :: key_toks ks). split; [|split].
  - apply (space_join "UNIQUE KEY" _ [TWord "UNIQUE"; TWord "KEY"]).
    + apply (fixed2 "UNIQUE" "KEY"); fixed_word.
    + apply (space_join (my_quote n) _ [TName n]); [apply quoted_token, Hn|now apply keys_lex].
  - apply (together_app [TWord "UNIQUE"; TWord "KEY"; TName n]); [|apply keys_together].
    apply together_toks. intros x [X|[X|[X|[]]]]; discriminate.
  - unfold read_item. change (kw "UNIQUE" "primary") with false. change (kw "UNIQUE" "unique") with true.
    change (kw "KEY" "key" || kw "KEY" "index") with true. cbv iota zeta. rewrite named_keys_read by assumption. reflexivity.
Qed.

Lemma index_reads : forall n ks, plain_quoted n -> ks <> [] -> Forall plain_quoted ks ->
  exists ts, lexes ("INDEX " ^ my_quote n ^ " (" ^ quote_and_join ks "`" ", " ^ ")") ts /\ together ts /\
    read_item reserved ts = Some (ItemKey (KIndex n ks)).
Proof.
  intros n ks Hn H F. exists (TWord "INDEX" :: TName n :: key_toks ks). split; [|split].
  - apply (space_join "INDEX" _ [TWord "INDEX"]); [fixed_word|].
    apply (space_join (my_quote n) _ [TName n]); [apply quoted_token, Hn|now apply keys_lex].
  - apply (together_app [TWord "INDEX"; TName n]); [|apply keys_together].
    apply together_toks. intros x [X|[X|[]]]; discriminate.
  - unfold read_item. change (kw "INDEX" "primary") with false. change (kw "INDEX" "unique") with false.
    change (kw "INDEX" "index" || kw "INDEX" "key") with true. cbv iota. rewrite named_keys_read by assumption. reflexivity.
Qed.

(** ** Tables *)

Inductive all_items : list string -> list (list tok) -> list my_item -> Prop :=
| ai_nil : all_items [] [] []
| ai_cons : forall s ts i ss tss is, lexes s ts -> together ts -> read_item reserved ts = Some i ->
    all_items ss tss is -> all_items (s :: ss) (ts :: tss) (i :: is).

Lemma all_items_app : forall s1 t1 o1 s2 t2 o2, all_items s1 t1 o1 -> all_items s2 t2 o2 ->
  all_items (s1 ++ s2) (t1 ++ t2) (o1 ++ o2).
Proof. intros s1 t1 o1 s2 t2 o2 H1 H2. induction H1; simpl; auto. constructor; auto. Qed.

Lemma items_read : forall ss tss is, all_items ss tss is -> read_items reserved tss = Some is.
Proof. intros ss tss is H. induction H; [reflexivity|]. simpl. now rewrite H1, IHall_items. Qed.

Lemma columns_read : forall cs, Forall (plain_column reserved) cs ->
  exists tss cds, all_items (map column_definition cs) tss (map ItemColumn cds) /\ Forall2 column_means cs cds.
Proof.
  intros cs H. induction H as [|c cs H HF [tss [cds [IH1 IH2]]]]; [exists [], []; split; constructor|].
  destruct (column_reads c H) as [ts [cd [L [T [R M]]]]]. exists (ts :: tss), (cd :: cds). split; constructor; auto.
Qed.

Lemma indices_read : forall ixs,
  Forall (fun i => plain_quoted (ix_name i) /\ ix_cols i <> [] /\ Forall plain_quoted (ix_cols i)) ixs ->
  exists tss, all_items (map (fun i => "INDEX " ^ my_quote (ix_name i) ^ " (" ^ quote_and_join (ix_cols i) "`" ", " ^ ")") ixs)
    tss (map (fun i => ItemKey (KIndex (ix_name i) (ix_cols i))) ixs).
Proof.
  intros ixs H. induction H as [|i ixs [H1 [H2 H3]] HF [tss IH]]; [exists []; constructor|].
  destruct (index_reads _ _ H1 H2 H3) as [ts [L [T R]]]. exists (ts :: tss). constructor; auto.
Qed.

Lemma ident_quoted : forall n, plain_ident reserved n -> plain_quoted n.
Proof.
  intros n [H1 H2]. split; [intros ->; discriminate|]. intros H. apply H1 in H. vm_compute in H. discriminate.
Qed.

Lemma definitions_read : forall suffix t, plain_table reserved suffix t ->
  exists tss cds, Forall2 column_means (t_cols t) cds /\
    all_items (table_definitions suffix t) tss
      (map ItemColumn cds ++ map ItemKey
        (key_if (map c_name (filter c_pk (t_cols t))) KPrimaryKey ++
         key_if (map c_name (filter c_uq (t_cols t))) (KUniq (t_name t ^ suffix)) ++
         map (fun i => KIndex (ix_name i) (ix_cols i)) (t_indices t))).
Proof.
  intros suffix t [Hn Hs [Hc HF] HI].
  destruct (columns_read _ HF) as [t1 [cds [A1 M]]]. destruct (indices_read _ HI) as [t4 A4].
  assert (Q : forall p, Forall plain_quoted (map c_name (filter p (t_cols t)))).
  { intros p. apply Forall_forall. intros n Hin. apply in_map_iff in Hin. destruct Hin as [c [<- Hin]]. apply filter_In in Hin.
    rewrite Forall_forall in HF. apply ident_quoted. destruct (HF c (proj1 Hin)) as [X _ _ _ _ _ _]. exact X. }
  assert (A2 : exists t2, all_items (match map (fun c => my_quote (c_name c)) (filter c_pk (t_cols t)) with
      [] => [] | _ => ["PRIMARY KEY (" ^ join ", " (map (fun c => my_quote (c_name c)) (filter c_pk (t_cols t))) ^ ")"] end)
      t2 (map ItemKey (key_if (map c_name (filter c_pk (t_cols t))) KPrimaryKey))).
  { specialize (Q c_pk). rewrite <- (map_map c_name my_quote). revert Q. generalize (map c_name (filter c_pk (t_cols t))).
    intros ks Q. destruct ks as [|k ks]; [exists []; constructor|].
    destruct (primary_reads (k :: ks) ltac:(discriminate) Q) as [ts [L [T R]]]. exists [ts]. constructor; auto. constructor. }
  assert (NQ : plain_quoted (t_name t ^ suffix)).
  { destruct (ident_quoted _ Hn) as [N1 N2]. split.
    - destruct (t_name t); [congruence|discriminate].
    - rewrite char_in_app. tauto. }
  assert (A3 : exists t3, all_items (match map (fun c => my_quote (c_name c)) (filter c_uq (t_cols t)) with
      [] => [] | _ => ["UNIQUE KEY " ^ my_quote (t_name t ^ suffix) ^ " (" ^
                       join ", " (map (fun c => my_quote (c_name c)) (filter c_uq (t_cols t))) ^ ")"] end)
      t3 (map ItemKey (key_if (map c_name (filter c_uq (t_cols t))) (KUniq (t_name t ^ suffix))))).
  { specialize (Q c_uq). rewrite <- (map_map c_name my_quote). revert Q. generalize (map c_name (filter c_uq (t_cols t))).
    intros ks Q. destruct ks as [|k ks]; [exists []; constructor|].
    destruct (unique_reads _ (k :: ks) NQ ltac:(discriminate) Q) as [ts [L [T R]]]. exists [ts]. constructor; auto. constructor. }
  destruct A2 as [t2 A2], A3 as [t3 A3].
  exists (t1 ++ t2 ++ t3 ++ t4), cds. split; [exact M|]. unfold table_definitions. cbv zeta.
  rewrite !map_app, map_map. apply all_items_app; [exact A1|]. apply all_items_app; [exact A2|].
  apply all_items_app; [exact A3|exact A4].
Qed.

(** lines with commas *)
Lemma lines_lex : forall ss tss is, all_items ss tss is -> ss <> [] ->
  lexes_any (String.concat "" (map (fun d => "  " ^ d ^ newline) (comma_except_last ss))) (comma_sep (fun x => x) tss).
Proof.
  intros ss tss is H. induction H as [|s ts i ss tss is L T R H IH]; intros Hn; [congruence|].
  assert (SP : lexes_any "  " []).
  { change "  " with (chr " " ^ chr " "). apply (lexes_any_any _ _ [] []); now apply space_token. }
  assert (NL : lexes_any newline []) by (apply (space_token (ascii_of_nat 10)); reflexivity).
  destruct H as [|s2 ts2 i2 ss tss is L2 T2 R2 H].
  - cbn [comma_except_last map String.concat comma_sep]. apply (lexes_any_any _ _ [] ts SP).
    rewrite <- (app_nil_r ts). apply lexes_app_any; [exact L|discriminate|reflexivity|exact NL].
  - assert (E : String.concat "" (map (fun d => "  " ^ d ^ newline) (comma_except_last (s :: s2 :: ss))) =
      ("  " ^ (s ^ (chr "," ^ newline))) ^ String.concat "" (map (fun d => "  " ^ d ^ newline) (comma_except_last (s2 :: ss)))).
    { change (comma_except_last (s :: s2 :: ss)) with ((s ^ ",") :: comma_except_last (s2 :: ss)).
      assert (M : comma_except_last (s2 :: ss) <> []) by (destruct ss; discriminate).
      destruct (comma_except_last (s2 :: ss)) as [|m more]; [congruence|].
      cbn [map]. cbn [String.concat]. rewrite !app_assoc_s. reflexivity. }
    rewrite E. change (comma_sep (fun x => x) (ts :: ts2 :: tss)) with (ts ++ TSym "," :: comma_sep (fun x => x) (ts2 :: tss)).
    replace (ts ++ TSym "," :: comma_sep (fun x => x) (ts2 :: tss)) with
      ((ts ++ [TSym ","]) ++ comma_sep (fun x => x) (ts2 :: tss)) by now rewrite <- app_assoc.
    apply lexes_any_any; [|apply IH; discriminate].
    apply (lexes_any_any _ _ [] _ SP). apply lexes_app_any; [exact L|discriminate|reflexivity|].
    apply (lexes_any_any _ _ [TSym ","] []); [now apply sym_token|exact NL].
Qed.

Lemma parts_split : forall ss tss is r, all_items ss tss is -> ss <> [] ->
  split_parts 0 (comma_sep (fun x => x) tss ++ TSym ")" :: r) = Some (tss, r).
Proof.
  intros ss tss is r H. induction H as [|s ts i ss tss is L [T _] R H IH]; intros Hn; [congruence|].
  destruct H as [|s2 ts2 i2 ss tss is L2 T2 R2 H].
  - cbn [comma_sep]. rewrite T. cbn. now rewrite app_nil_r.
  - change (comma_sep (fun x => x) (ts :: ts2 :: tss)) with (ts ++ TSym "," :: comma_sep (fun x => x) (ts2 :: tss)).
    rewrite <- app_assoc, T. cbn [app]. cbn [split_parts]. change (Ascii.eqb "," ")") with false.
    change (Ascii.eqb "," "(") with false. change (Ascii.eqb "," "," && Nat.eqb 0 0) with true. cbv iota.
    rewrite IH by discriminate. cbn. now rewrite app_nil_r.
Qed.

Lemma items_no_semicolon : forall ss tss is, all_items ss tss is -> ~ In (TSym ";") (comma_sep (fun x => x) tss).
Proof.
  intros ss tss is H. induction H as [|s ts i ss tss is L [_ T] R H IH]; [intros []|].
  destruct tss as [|t2 tss]; [exact T|].
  change (comma_sep (fun x => x) (ts :: t2 :: tss)) with (ts ++ TSym "," :: comma_sep (fun x => x) (t2 :: tss)).
  rewrite in_app_iff. cbn [In]. intros [X|[X|X]]; auto. discriminate.
Qed.

Lemma split_stmts_app : forall ts r, ~ In (TSym ";") ts -> split_stmts (ts ++ TSym ";" :: r) = ts :: split_stmts r.
Proof.
  induction ts as [|t ts IH]; intros r H; [reflexivity|].
  assert (IH' := IH r (fun X => H (or_intror X))). cbn [app].
  destruct t; cbn [split_stmts]; rewrite IH'; try reflexivity.
  destruct (Ascii.eqb_spec c ";"); [|reflexivity]. subst c. exfalso. apply H. now left.
Qed.

Lemma flat_items : forall cds ks,
  flat_map (fun i => match i with ItemColumn cd => [cd] | ItemKey _ => [] end) (map ItemColumn cds ++ map ItemKey ks) = cds /\
  flat_map (fun i => match i with ItemColumn _ => [] | ItemKey k => [k] end) (map ItemColumn cds ++ map ItemKey ks) = ks.
Proof.
  intros cds ks. rewrite !flat_map_app. split.
  - replace (flat_map _ (map ItemKey ks)) with (@nil col_def) by (induction ks; auto).
    rewrite app_nil_r. induction cds; simpl; congruence.
  - replace (flat_map _ (map ItemColumn cds)) with (@nil my_constraint) by (induction cds; auto).
    induction ks; simpl in *; congruence.
Qed.

Lemma table_reads : forall suffix t, plain_table reserved suffix t ->
  exists ts st, lexes_any (export_table suffix t) (ts ++ [TSym ";"]) /\ ~ In (TSym ";") ts /\ ts <> [] /\
    read_stmt reserved ts = Some st /\ table_means suffix t st.
Proof.
  intros suffix t H. destruct (definitions_read suffix t H) as [tss [cds [M AI]]]. destruct H as [Hn Hs [Hc HF] HI].
  destruct (ident_token _ Hn) as [IL IR].
  assert (NE : table_definitions suffix t <> []).
  { unfold table_definitions. destruct (t_cols t); [congruence|discriminate]. }
  set (body := comma_sep (fun x => x) tss) in *.
  exists ([TWord "CREATE"; TWord "TABLE"; TWord "IF"; TWord "NOT"; TWord "EXISTS"; TWord (t_name t); TSym "("] ++ body ++ [TSym ")"]).
  eexists. split; [|split; [|split; [discriminate|split]]].
  - unfold export_table.
    replace ("CREATE TABLE IF NOT EXISTS " ^ t_name t ^ " (" ^ newline ^
      String.concat "" (map (fun d => "  " ^ d ^ newline) (comma_except_last (table_definitions suffix t))) ^ ");" ^ newline)
    with (("CREATE TABLE IF NOT EXISTS " ^ t_name t) ^ (chr " " ^ (chr "(" ^ newline) ^
      (String.concat "" (map (fun d => "  " ^ d ^ newline) (comma_except_last (table_definitions suffix t))) ^
       (chr ")" ^ (chr ";" ^ newline))))) by (rewrite !app_assoc_s; reflexivity).
    replace (([TWord "CREATE"; TWord "TABLE"; TWord "IF"; TWord "NOT"; TWord "EXISTS"; TWord (t_name t); TSym "("] ++
      body ++ [TSym ")"]) ++ [TSym ";"])
    with ([TWord "CREATE"; TWord "TABLE"; TWord "IF"; TWord "NOT"; TWord "EXISTS"; TWord (t_name t)] ++
      [] ++ ([TSym "("] ++ []) ++ (body ++ ([TSym ")"] ++ ([TSym ";"] ++ []))))
      by (cbn [app]; rewrite <- !app_assoc; reflexivity).
    assert (NL : lexes_any newline []) by (apply (space_token (ascii_of_nat 10)); reflexivity).
    apply lexes_app_any; [|discriminate|reflexivity|].
    + apply (space_join "CREATE TABLE IF NOT EXISTS" (t_name t) [TWord "CREATE"; TWord "TABLE"; TWord "IF"; TWord "NOT"; TWord "EXISTS"]
        [TWord (t_name t)]); [|exact IL].
      apply (space_join "CREATE" "TABLE IF NOT EXISTS" [TWord "CREATE"] [TWord "TABLE"; TWord "IF"; TWord "NOT"; TWord "EXISTS"]); [fixed_word|].
      apply (space_join "TABLE" "IF NOT EXISTS" [TWord "TABLE"] [TWord "IF"; TWord "NOT"; TWord "EXISTS"]); [fixed_word|].
      apply (space_join "IF" "NOT EXISTS" [TWord "IF"] [TWord "NOT"; TWord "EXISTS"]); [fixed_word|].
      apply (fixed2 "NOT" "EXISTS"); fixed_word.
    + apply lexes_any_any; [now apply space_token|]. apply lexes_any_any.
      * apply lexes_any_any; [now apply sym_token|exact NL].
      * apply lexes_any_any; [eapply lines_lex; eauto|]. apply lexes_any_any; [now apply sym_token|].
        apply lexes_any_any; [now apply sym_token|exact NL].
  - rewrite !in_app_iff. intros [X|[X|X]].
    + cbn in X. intuition discriminate.
    + now apply (items_no_semicolon _ _ _ AI).
    + cbn in X. intuition discriminate.
  - cbn [app read_stmt]. change (kw "CREATE" "create" && kw "TABLE" "table") with true.
    change (kw "IF" "if" && kw "NOT" "not" && kw "EXISTS" "exists") with true. cbv iota.
    unfold read_body. change (Ascii.eqb "(" "(") with true. cbv iota. rewrite IR. unfold body. rewrite (parts_split _ _ _ [] AI NE).
    rewrite (items_read _ _ _ AI). reflexivity.
  - exists cds. split; [exact M|]. destruct (flat_items cds (key_if (map c_name (filter c_pk (t_cols t))) KPrimaryKey ++
         key_if (map c_name (filter c_uq (t_cols t))) (KUniq (t_name t ^ suffix)) ++
         map (fun i => KIndex (ix_name i) (ix_cols i)) (t_indices t))) as [E1 E2]. rewrite E1, E2. reflexivity.
Qed.

(** ** Schemas *)
Lemma tables_read : forall suffix ts, Forall (plain_table reserved suffix) ts ->
  exists toks stmts, lexes_any (String.concat "" (map (export_table suffix) ts)) toks /\
    read_stmts reserved (split_stmts toks) = Some stmts /\ Forall2 (table_means suffix) ts stmts.
Proof.
  intros suffix ts H. induction H as [|t ts H HF [toks [stmts [L [R M]]]]].
  - exists [], []. split; [apply lexes_nil|]. split; [reflexivity|constructor].
  - destruct (table_reads suffix t H) as [tt [st [L1 [N1 [NE [R1 M1]]]]]].
    exists ((tt ++ [TSym ";"]) ++ toks), (st :: stmts). split; [|split].
    + replace (String.concat "" (map (export_table suffix) (t :: ts)))
        with (export_table suffix t ^ String.concat "" (map (export_table suffix) ts)).
      2:{ cbn [map]. destruct ts as [|t2 ts]; [cbn; now rewrite app_nil_r_s|]. reflexivity. }
      now apply lexes_any_any.
    + rewrite <- app_assoc. cbn [app]. rewrite split_stmts_app by exact N1.
      cbn [read_stmts]. destruct tt; [congruence|]. rewrite R1, R. reflexivity.
    + constructor; auto.
Qed.

Lemma export_reads : forall f suffix s, Forall (plain_table reserved suffix) (filter (passes f) (s_tables s)) ->
  exists stmts, read_sql reserved (my_export f suffix s) = Some stmts /\
    Forall2 (table_means suffix) (filter (passes f) (s_tables s)) stmts.
Proof.
  intros f suffix s H. destruct (tables_read suffix _ H) as [toks [stmts [L [R M]]]]. exists stmts. split; [|exact M].
  unfold read_sql, my_export. rewrite (lex_all _ _ (any_lexes _ _ L)). exact R.
Qed.

End Reserved.
