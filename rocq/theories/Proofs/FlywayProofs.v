(** Reading Flyway scripts *)
From Coq Require Import String Ascii List NArith ZArith Bool Lia.
From Verif.Model Require Import GoString Util Octopus DiffCore Diff Mysql DiffWriters.
From Verif.Spec Require Import Text Order DiffSpec MysqlGrammar MysqlSpec FlywaySpec.
From Verif.Proofs Require Import StringLemmas OctopusProofs DiffCoreProofs MysqlLex MysqlTypes MysqlRead.
Import ListNotations.
Local Open Scope string_scope.
Local Open Scope list_scope.

Definition both {A} (a b : option (list A)) : option (list A) :=
  match a, b with Some x, Some y => Some (x ++ y) | _, _ => None end.

Lemma both_assoc : forall {A} (a b c : option (list A)), both a (both b c) = both (both a b) c.
Proof. intros A [a|] [b|] [c|]; simpl; try reflexivity. now rewrite app_assoc. Qed.

Section Reserved.
Variable reserved : string -> bool.
Let rs := alter_reserved reserved.

(** [s] says [o] ([None]: invalid), whatever follows *)
Definition says (s : string) (o : option (list mig_stmt)) : Prop :=
  exists toks, lexes_any s toks /\
    forall r, read_migs reserved (split_stmts (toks ++ r)) = both o (read_migs reserved (split_stmts r)).

Lemma says_nil : says "" (Some []).
Proof. exists []. split; [apply lexes_nil|]. intros r. simpl. now destruct (read_migs _ _). Qed.

Lemma says_app : forall a b oa ob, says a oa -> says b ob -> says (a ^ b) (both oa ob).
Proof.
  intros a b oa ob [ta [La Ra]] [tb [Lb Rb]]. exists (ta ++ tb). split; [now apply lexes_any_any|].
  intros r. rewrite <- app_assoc, Ra, Rb. apply both_assoc.
Qed.

Lemma newline_lexes : lexes_any newline [].
Proof. apply (space_token (ascii_of_nat 10)). reflexivity. Qed.

Lemma says_newline : says newline (Some []).
Proof. exists []. split; [apply newline_lexes|]. intros r. simpl. now destruct (read_migs _ _). Qed.

Lemma says_script : forall s o, says s o -> read_script reserved s = o.
Proof.
  intros s o [toks [L R]]. unfold read_script. rewrite (lex_all _ _ (any_lexes _ _ L)).
  rewrite <- (app_nil_r toks), R. simpl. destruct o as [l|]; [|reflexivity]. simpl. now rewrite app_nil_r.
Qed.

(** one statement *)
Lemma says_any : forall s ts, lexes_any s (ts ++ [TSym ";"]) -> ~ In (TSym ";") ts -> ts <> [] ->
  says s (option_map (fun m => [m]) (read_mig reserved ts)).
Proof.
  intros s ts L N E. exists (ts ++ [TSym ";"]). split; [exact L|].
  intros r. rewrite <- app_assoc. cbn [app]. rewrite split_stmts_app by exact N.
  destruct ts as [|t ts]; [congruence|]. cbn [read_migs].
  destruct (read_mig reserved (t :: ts)) as [m|]; [|reflexivity]. cbn [option_map both].
  destruct (read_migs reserved (split_stmts r)); reflexivity.
Qed.

Lemma says_stmt : forall s ts, lexes s ts -> ~ In (TSym ";") ts -> ts <> [] ->
  says (s ^ ";") (option_map (fun m => [m]) (read_mig reserved ts)).
Proof.
  intros s ts L N E. apply says_any; auto. apply (lexes_app_any s ";" ts [TSym ";"]); [exact L|discriminate|reflexivity|].
  now apply (sym_token ";").
Qed.

(** ** Parts *)

Lemma words2 : forall a b s ts, lexes a [TWord a] -> lexes b [TWord b] -> lexes s ts ->
  lexes (a ^ " " ^ b ^ " " ^ s) (TWord a :: TWord b :: ts).
Proof.
  intros a b s ts Ha Hb Hs. apply (space_join a _ [TWord a]); [exact Ha|]. now apply (space_join b _ [TWord b]).
Qed.

Lemma ident_special : forall w k, plain_ident rs w -> In k alter_words -> kw w k = false.
Proof.
  intros w k [_ H] Hk. unfold kw. apply String.eqb_neq. intros E. destruct w as [|c w]; [discriminate|].
  cbn [is_ident] in H. apply andb_true_iff in H. destruct H as [_ H]. unfold rs, alter_reserved in H. rewrite E in H.
  apply (str_in_iff k alter_words) in Hk. rewrite Hk, orb_true_r in H. discriminate.
Qed.

Lemma no_column : forall w ts, plain_ident rs w -> skip_column (TWord w :: ts) = TWord w :: ts.
Proof. intros w ts H. unfold skip_column. rewrite (ident_special w "column" H) by (cbn; tauto). reflexivity. Qed.

(** a column with some options *)
Lemma options_column : forall c ft ss tss os, plain_column rs c -> sql_type c = Some ft -> all_opts ss tss os ->
  exists ts, lexes (join " " (c_name c :: to_mysql_column_type c :: ss)) (TWord (c_name c) :: ts) /\
    ~ In (TSym ";") ts /\ read_column rs (TWord (c_name c) :: ts) = Some (mkColDef (c_name c) ft os).
Proof.
  intros c ft ss tss os [Hn HT HV HS Hd Hu HC] Es AO.
  destruct (type_reads c HT HV) as [tt [TL [TT TR]]]. destruct (ident_token rs _ Hn) as [IL IR].
  exists (tt ++ concat tss). split; [|split].
  - change (TWord (c_name c) :: tt ++ concat tss) with (concat ([TWord (c_name c)] :: tt :: tss)).
    apply join_space; [|discriminate]. constructor; [exact IL|]. constructor; [exact TL|]. eapply all_opts_lex; eauto.
  - apply (together_app tt (concat tss)); [exact TT|]. eapply all_opts_tog; eauto.
  - unfold read_column. rewrite IR. rewrite TR by (eapply all_opts_nosym; eauto). rewrite Es. cbn [option_map].
    rewrite (all_opts_read _ _ _ _ AO) by (eapply all_opts_length; eauto). reflexivity.
Qed.

Lemma opt_not_null : opt_reads "NOT NULL" [TWord "NOT"; TWord "NULL"] ONotNull.
Proof.
  constructor; try exact I; try discriminate; [|apply together_toks; intros x [X|[X|[]]]; discriminate|reflexivity].
  apply (fixed2 "NOT" "NULL"); fixed_word.
Qed.
Lemma opt_autoinc : opt_reads "AUTO_INCREMENT" [TWord "AUTO_INCREMENT"] OAutoIncrement.
Proof. constructor; try exact I; try discriminate; [fixed_word|apply together_plain; discriminate|reflexivity]. Qed.
Lemma opt_primary : opt_reads "PRIMARY KEY" [TWord "PRIMARY"; TWord "KEY"] OPrimaryKey.
Proof.
  constructor; try exact I; try discriminate; [|apply together_toks; intros x [X|[X|[]]]; discriminate|reflexivity].
  apply (fixed2 "PRIMARY" "KEY"); fixed_word.
Qed.

(** ALTER TABLE name MODIFY ... *)
Lemma modify_says : forall (col : bool) n c ft ss tss os, plain_ident rs n -> plain_column rs c -> sql_type c = Some ft ->
  all_opts ss tss os ->
  says ("ALTER TABLE " ^ n ^ (if col then " MODIFY COLUMN " else " MODIFY ") ^
        join " " (c_name c :: to_mysql_column_type c :: ss) ^ ";")
    (Some [MModify n (mkColDef (c_name c) ft os)]).
Proof.
  intros col n c ft ss tss os Hn Hc Es AO. destruct (options_column c ft ss tss os Hc Es AO) as [ts [L [N R]]].
  destruct (ident_token rs _ Hn) as [IL IR].
  set (toks := TWord "ALTER" :: TWord "TABLE" :: TWord n :: TWord "MODIFY" ::
                 (if col then [TWord "COLUMN"] else []) ++ TWord (c_name c) :: ts).
  assert (RM : read_mig reserved toks = Some (MModify n (mkColDef (c_name c) ft os))).
  { unfold toks, read_mig. fold rs. change (kw "ALTER" "create") with false. change (kw "TABLE" "table") with true.
    change (kw "ALTER" "drop") with false. change (kw "ALTER" "rename") with false. change (kw "ALTER" "alter") with true.
    cbv iota. cbn [negb]. rewrite IR. unfold read_alter. change (kw "MODIFY" "modify") with true. cbv iota. fold rs.
    destruct col; cbn [app].
    - change (skip_column (TWord "COLUMN" :: TWord (c_name c) :: ts)) with (TWord (c_name c) :: ts). rewrite R. reflexivity.
    - rewrite no_column by apply Hc. rewrite R. reflexivity. }
  replace (Some [MModify n (mkColDef (c_name c) ft os)]) with (option_map (fun m => [m]) (read_mig reserved toks)) by now rewrite RM.
  replace ("ALTER TABLE " ^ n ^ (if col then " MODIFY COLUMN " else " MODIFY ") ^
           join " " (c_name c :: to_mysql_column_type c :: ss) ^ ";")
    with (("ALTER" ^ " " ^ "TABLE" ^ " " ^ n ^ " " ^ "MODIFY" ^ " " ^ (if col then "COLUMN" ^ " " else "") ^
           join " " (c_name c :: to_mysql_column_type c :: ss)) ^ ";").
  2: { destruct col; rewrite !app_assoc_s; cbn [String.append]; rewrite ?app_assoc_s; reflexivity. }
  apply says_stmt; [|destruct col; cbn [toks app In]; intuition discriminate|discriminate].
  unfold toks. apply words2; try fixed_word. apply (words2 n "MODIFY"); [exact IL|fixed_word|].
  destruct col; [|exact L].
  change (("COLUMN" ^ " ") ^ join " " (c_name c :: to_mysql_column_type c :: ss))
    with ("COLUMN" ^ " " ^ join " " (c_name c :: to_mysql_column_type c :: ss)).
  apply (space_join "COLUMN" _ [TWord "COLUMN"]); [fixed_word|exact L].
Qed.

(** keys without quotes *)
Lemma bare_join_lexes : forall ks, ks <> [] -> Forall (plain_ident rs) ks ->
  lexes (join "," ks) (comma_sep (fun k => [TWord k]) ks).
Proof.
  induction ks as [|k ks IH]; intros Hn F; [congruence|]. inversion F as [|? ? Hk F']; subst.
  destruct (ident_token rs _ Hk) as [IL _]. destruct ks as [|k2 ks]; [exact IL|].
  cbn [join]. change (comma_sep (fun k => [TWord k]) (k :: k2 :: ks)) with ([TWord k] ++ [TSym ","] ++ comma_sep (fun k => [TWord k]) (k2 :: ks)).
  apply lexes_app; [exact IL|discriminate|reflexivity|].
  apply lexes_any_app; [now apply (sym_token ",")|]. apply IH; [discriminate|exact F'].
Qed.

Lemma bare_keys_read : forall ks, ks <> [] -> Forall (plain_ident rs) ks ->
  read_key_list rs (comma_sep (fun k => [TWord k]) ks ++ [TSym ")"]) = Some ks.
Proof.
  induction ks as [|k ks IH]; intros H F; [congruence|]. inversion F as [|? ? Hk F']; subst.
  destruct (ident_token rs _ Hk) as [_ RN]. destruct ks as [|k2 ks].
  - cbn [comma_sep app]. cbn [read_key_list]. rewrite RN. reflexivity.
  - change (comma_sep (fun v => [TWord v]) (k :: k2 :: ks)) with (TWord k :: TSym "," :: comma_sep (fun v => [TWord v]) (k2 :: ks)).
    cbn [app]. cbn [read_key_list]. rewrite RN. change (Ascii.eqb "," ")") with false. change (Ascii.eqb "," ",") with true.
    cbv iota. rewrite IH by (auto; discriminate). reflexivity.
Qed.

Lemma sep_no_semicolon : forall ks, ~ In (TSym ";") (comma_sep (fun k => [TWord k]) ks).
Proof.
  induction ks as [|k ks IH]; [intros []|]. destruct ks as [|k2 ks]; [intros [X|[]]; discriminate|].
  change (comma_sep (fun v => [TWord v]) (k :: k2 :: ks)) with (TWord k :: TSym "," :: comma_sep (fun v => [TWord v]) (k2 :: ks)).
  intros [X|[X|X]]; [discriminate|discriminate|auto].
Qed.

Lemma drop_key_says : forall n, plain_ident rs n ->
  says ("ALTER TABLE " ^ n ^ " DROP PRIMARY KEY;") (Some [MDropPrimaryKey n]).
Proof.
  intros n Hn. destruct (ident_token rs _ Hn) as [IL IR].
  set (toks := [TWord "ALTER"; TWord "TABLE"; TWord n; TWord "DROP"; TWord "PRIMARY"; TWord "KEY"]).
  assert (RM : read_mig reserved toks = Some (MDropPrimaryKey n)).
  { unfold toks, read_mig. fold rs. change (kw "ALTER" "create") with false. change (kw "TABLE" "table") with true.
    change (kw "ALTER" "drop") with false. change (kw "ALTER" "rename") with false. change (kw "ALTER" "alter") with true.
    cbv iota. cbn [negb]. rewrite IR. reflexivity. }
  replace (Some [MDropPrimaryKey n]) with (option_map (fun m => [m]) (read_mig reserved toks)) by now rewrite RM.
  replace ("ALTER TABLE " ^ n ^ " DROP PRIMARY KEY;")
    with (("ALTER" ^ " " ^ "TABLE" ^ " " ^ n ^ " " ^ "DROP" ^ " " ^ "PRIMARY" ^ " " ^ "KEY") ^ ";")
    by (rewrite !app_assoc_s; reflexivity).
  apply says_stmt; [|cbn [toks In]; intuition discriminate|discriminate].
  unfold toks. apply words2; try fixed_word. apply (words2 n "DROP"); [exact IL|fixed_word|].
  apply (fixed2 "PRIMARY" "KEY"); fixed_word.
Qed.

Lemma add_key_says : forall n ks, plain_ident rs n -> ks <> [] -> Forall (plain_ident rs) ks ->
  says ("ALTER TABLE " ^ n ^ " ADD PRIMARY KEY (" ^ join "," ks ^ ");") (Some [MAddPrimaryKey n ks]).
Proof.
  intros n ks Hn NE F. destruct (ident_token rs _ Hn) as [IL IR].
  set (toks := TWord "ALTER" :: TWord "TABLE" :: TWord n :: TWord "ADD" :: TWord "PRIMARY" :: TWord "KEY" ::
                 TSym "(" :: comma_sep (fun k => [TWord k]) ks ++ [TSym ")"]).
  assert (RM : read_mig reserved toks = Some (MAddPrimaryKey n ks)).
  { unfold toks, read_mig. fold rs. change (kw "ALTER" "create") with false. change (kw "TABLE" "table") with true.
    change (kw "ALTER" "drop") with false. change (kw "ALTER" "rename") with false. change (kw "ALTER" "alter") with true.
    cbv iota. cbn [negb]. rewrite IR. unfold read_alter. change (kw "ADD" "modify") with false. change (kw "ADD" "add") with true.
    change (kw "PRIMARY" "primary" && kw "KEY" "key") with true. cbv iota. unfold read_keys. change (Ascii.eqb "(" "(") with true.
    cbv iota. fold rs. rewrite bare_keys_read by assumption. reflexivity. }
  replace (Some [MAddPrimaryKey n ks]) with (option_map (fun m => [m]) (read_mig reserved toks)) by now rewrite RM.
  replace ("ALTER TABLE " ^ n ^ " ADD PRIMARY KEY (" ^ join "," ks ^ ");")
    with (("ALTER" ^ " " ^ "TABLE" ^ " " ^ n ^ " " ^ "ADD" ^ " " ^ "PRIMARY" ^ " " ^ "KEY" ^ " " ^ ("(" ^ join "," ks ^ ")")) ^ ";")
    by (rewrite !app_assoc_s; cbn [String.append]; rewrite ?app_assoc_s; reflexivity).
  apply says_stmt; [| |discriminate].
  - unfold toks. apply words2; try fixed_word. apply (words2 n "ADD"); [exact IL|fixed_word|].
    apply words2; try fixed_word. apply any_lexes, paren_lexes, bare_join_lexes; assumption.
  - cbn [toks In]. rewrite in_app_iff. cbn [In]. pose proof (sep_no_semicolon ks). intuition discriminate.
Qed.

Lemma drop_says : forall n, plain_ident rs n -> says ("DROP TABLE " ^ n ^ ";") (Some [MDropTable n]).
Proof.
  intros n Hn. destruct (ident_token rs _ Hn) as [IL IR].
  set (toks := [TWord "DROP"; TWord "TABLE"; TWord n]).
  assert (RM : read_mig reserved toks = Some (MDropTable n)).
  { unfold toks, read_mig. fold rs. change (kw "DROP" "create") with false. change (kw "TABLE" "table") with true.
    change (kw "DROP" "drop") with true. cbv iota. cbn [negb]. rewrite IR. reflexivity. }
  replace (Some [MDropTable n]) with (option_map (fun m => [m]) (read_mig reserved toks)) by now rewrite RM.
  replace ("DROP TABLE " ^ n ^ ";") with (("DROP" ^ " " ^ "TABLE" ^ " " ^ n) ^ ";") by (rewrite !app_assoc_s; reflexivity).
  apply says_stmt; [|cbn [toks In]; intuition discriminate|discriminate].
  unfold toks. apply words2; try fixed_word. exact IL.
Qed.

Lemma rename_says : forall o n, plain_ident rs o -> plain_ident rs n ->
  says ("RENAME TABLE " ^ o ^ " TO " ^ n ^ ";") (Some [MRename o n]).
Proof.
  intros o n Ho Hn. destruct (ident_token rs _ Ho) as [OL OR]. destruct (ident_token rs _ Hn) as [IL IR].
  set (toks := [TWord "RENAME"; TWord "TABLE"; TWord o; TWord "TO"; TWord n]).
  assert (RM : read_mig reserved toks = Some (MRename o n)).
  { unfold toks, read_mig. fold rs. change (kw "RENAME" "create") with false. change (kw "TABLE" "table") with true.
    change (kw "RENAME" "drop") with false. change (kw "RENAME" "rename") with true. cbv iota. cbn [negb].
    change (kw "TO" "to") with true. cbv iota. rewrite OR, IR. reflexivity. }
  replace (Some [MRename o n]) with (option_map (fun m => [m]) (read_mig reserved toks)) by now rewrite RM.
  replace ("RENAME TABLE " ^ o ^ " TO " ^ n ^ ";")
    with (("RENAME" ^ " " ^ "TABLE" ^ " " ^ o ^ " " ^ "TO" ^ " " ^ n) ^ ";")
    by (rewrite !app_assoc_s; cbn [String.append]; rewrite ?app_assoc_s; reflexivity).
  apply says_stmt; [|cbn [toks In]; intuition discriminate|discriminate].
  unfold toks. apply words2; try fixed_word. now apply (words2 o "TO"); [exact OL|fixed_word|].
Qed.

Lemma create_says : forall suffix t, plain_table rs suffix t ->
  exists st, table_means suffix t st /\ says (export_table suffix t) (Some [MCreate st]).
Proof.
  intros suffix t H. destruct (table_reads rs suffix t H) as [ts [st [L [N [NE [R M]]]]]]. exists st. split; [exact M|].
  assert (RM : read_mig reserved ts = Some (MCreate st)).
  { unfold read_stmt in R. destruct ts as [|[a| | |] [|[b| | |] r]]; try discriminate R.
    destruct (kw a "create") eqn:E; [|discriminate R]. unfold read_mig. fold rs. rewrite E.
    unfold read_stmt. rewrite E. now rewrite R. }
  replace (Some [MCreate st]) with (option_map (fun m => [m]) (read_mig reserved ts)) by now rewrite RM.
  now apply says_any.
Qed.

(** AddColumn is never understood *)
Lemma add_column_says : forall n c, plain_ident rs n -> plain_column rs c ->
  says ("ALTER TABLE " ^ n ^ " MODIFY ADD " ^ column_definition c ^ ";") None.
Proof.
  intros n c Hn Hc. destruct (column_reads rs c Hc) as [ts [cd [L [[_ T] [R M]]]]].
  destruct (ident_token rs _ Hn) as [IL IR].
  set (toks := TWord "ALTER" :: TWord "TABLE" :: TWord n :: TWord "MODIFY" :: TWord "ADD" :: ts).
  assert (RM : read_mig reserved toks = None).
  { unfold toks, read_mig. fold rs. change (kw "ALTER" "create") with false. change (kw "TABLE" "table") with true.
    change (kw "ALTER" "drop") with false. change (kw "ALTER" "rename") with false. change (kw "ALTER" "alter") with true.
    cbv iota. cbn [negb]. rewrite IR. unfold read_alter. change (kw "MODIFY" "modify") with true. cbv iota. fold rs.
    change (skip_column (TWord "ADD" :: ts)) with (TWord "ADD" :: ts). unfold read_column. cbn [read_name].
    replace (is_ident rs "ADD") with false; [reflexivity|]. unfold is_ident, rs, alter_reserved.
    change (str_in (to_lower "ADD") alter_words) with true. rewrite orb_true_r. now rewrite andb_false_r. }
  replace (@None (list mig_stmt)) with (option_map (fun m => [m]) (read_mig reserved toks)) by now rewrite RM.
  replace ("ALTER TABLE " ^ n ^ " MODIFY ADD " ^ column_definition c ^ ";")
    with (("ALTER" ^ " " ^ "TABLE" ^ " " ^ n ^ " " ^ "MODIFY" ^ " " ^ "ADD" ^ " " ^ column_definition c) ^ ";")
    by (rewrite !app_assoc_s; cbn [String.append]; rewrite ?app_assoc_s; reflexivity).
  apply says_stmt; [|cbn [toks In]; intuition discriminate|discriminate].
  unfold toks. apply words2; try fixed_word. apply (words2 n "MODIFY"); [exact IL|fixed_word|].
  apply (space_join "ADD" _ [TWord "ADD"]); [fixed_word|exact L].
Qed.

(** ** Changes *)

Lemma says_line : forall s o, says s o -> says (s ^ newline) o.
Proof.
  intros s o H. replace o with (both o (Some [])).
  - apply says_app; [exact H|apply says_newline].
  - destruct o; simpl; [now rewrite app_nil_r|reflexivity].
Qed.

Lemma lines_cons : forall s l, write_lines (s :: l) = (s ^ newline) ^ write_lines l.
Proof. intros s [|s2 l]; [unfold write_lines; simpl; now rewrite app_nil_r_s|reflexivity]. Qed.

Lemma concat_nil_cons : forall (s : string) l, String.concat "" (s :: l) = s ^ String.concat "" l.
Proof. intros s [|s2 l]; [simpl; now rewrite app_nil_r_s|reflexivity]. Qed.

Lemma lines_app : forall a b, write_lines (a ++ b) = write_lines a ^ write_lines b.
Proof.
  induction a as [|s a IH]; intros b; [reflexivity|]. cbn [app]. rewrite !lines_cons, IH. now rewrite !app_assoc_s.
Qed.

Lemma one_line : forall s o, says s o -> says (write_lines [s]) o.
Proof. intros s o H. rewrite lines_cons. change (write_lines []) with "". rewrite app_nil_r_s. exact (says_line s o H). Qed.

Lemma key_columns_slice : forall t, key_columns t (ss_slice (pk_name_set t)).
Proof.
  intros t. split.
  - apply sort_strings_nodup_strict, pk_name_set_nodup.
  - intros k. rewrite ss_slice_in. apply pk_name_set_in.
Qed.


Lemma autoinc_nonempty : forall c, c_autoinc c = true -> column_constraint_list c <> [].
Proof. intros c H. unfold column_constraint_list. rewrite H. destruct (c_notnull c); discriminate. Qed.

Lemma change_says : forall suffix ch, plain_change reserved suffix ch ->
  exists l, sql_of suffix ch l /\ says (write_lines (to_sql suffix ch)) (Some l).
Proof.
  intros suffix ch H. unfold plain_change in H. cbv zeta in H. fold rs in H. destruct ch; cbn [to_sql].
  - destruct (create_says suffix t H) as [st [M S]]. exists [MCreate st]. split; [now constructor|now apply one_line].
  - exists [MDropTable (t_name t)]. split; [constructor|]. apply one_line. now apply drop_says.
  - exists [MRename (t_name old) (t_name new)]. split; [constructor|]. apply one_line. now apply rename_says.
  - destruct H as [Hn HF]. cbv zeta. pose proof (key_columns_slice new) as K.
    assert (F : Forall (plain_ident rs) (ss_slice (pk_name_set new))).
    { apply Forall_forall. intros k Hk. apply (proj2 K) in Hk. destruct Hk as [c [Hc [_ <-]]].
      rewrite Forall_forall in HF. now apply HF. }
    destruct (ss_slice (pk_name_set new)) as [|k ks] eqn:E.
    + exists [MDropPrimaryKey (t_name new)]. split; [now apply so_no_key|]. cbn [length Nat.ltb Nat.leb]. apply one_line. now apply drop_key_says.
    + exists [MDropPrimaryKey (t_name new); MAddPrimaryKey (t_name new) (k :: ks)].
      split; [apply so_key; [exact K|discriminate]|].
      change (Nat.ltb 0 (length (k :: ks))) with true. cbv iota. rewrite lines_cons.
      change (Some [MDropPrimaryKey (t_name new); MAddPrimaryKey (t_name new) (k :: ks)])
        with (both (Some [MDropPrimaryKey (t_name new)]) (Some [MAddPrimaryKey (t_name new) (k :: ks)])).
      apply says_app; [apply says_line; now apply drop_key_says|]. apply one_line. apply add_key_says; auto. discriminate.
  - exists []. split; [now apply so_silent|apply says_nil].
  - exists []. split; [now apply so_silent|apply says_nil].
  - exists []. split; [now apply so_silent|apply says_nil].
  - destruct H.
  - exists []. split; [now apply so_silent|apply says_nil].
  - exists []. split; [now apply so_silent|apply says_nil].
  - exists []. split; [now apply so_silent|apply says_nil].
  - exists []. split; [now apply so_silent|apply says_nil].
  - destruct H as [Hn Hc]. destruct (sql_type c) as [ft|] eqn:Es; [|now destruct (pc_sql _ _ Hc)].
    exists [MModify (t_name t) (mkColDef (c_name c) ft (if c_notnull c then [ONotNull] else []))].
    split; [now apply so_not_null|]. destruct (c_notnull c).
    + apply one_line. change (c_name c ^ " " ^ to_mysql_column_type c ^ " NOT NULL;")
        with (c_name c ^ " " ^ to_mysql_column_type c ^ " " ^ "NOT NULL" ^ ";").
      replace (c_name c ^ " " ^ to_mysql_column_type c ^ " " ^ "NOT NULL" ^ ";")
        with (join " " [c_name c; to_mysql_column_type c; "NOT NULL"] ^ ";")
        by (cbn [join]; rewrite !app_assoc_s; reflexivity).
      eapply (modify_says false); eauto. constructor; [apply opt_not_null|constructor].
    + apply one_line. replace (c_name c ^ " " ^ to_mysql_column_type c ^ ";")
        with (join " " [c_name c; to_mysql_column_type c] ^ ";") by (cbn [join]; rewrite !app_assoc_s; reflexivity).
      eapply (modify_says false); eauto. constructor.
  - destruct H as [Hn Hc]. destruct (sql_type c) as [ft|] eqn:Es; [|now destruct (pc_sql _ _ Hc)].
    destruct (c_autoinc c) eqn:Ea.
    + destruct (options_read c (pc_type _ _ Hc) (pc_desc _ _ Hc) (pc_default _ _ Hc) (pc_update _ _ Hc))
        as [tss [os [AO [ds [us [D [U Eo]]]]]]].
      exists [MModify (t_name t) (mkColDef (c_name c) ft os)]. split.
      { apply so_autoinc_on; [exact Ea|]. split; [reflexivity|]. split; [exact Es|]. exists ds, us. auto. }
      apply one_line. cbn [join]. unfold column_constraints.
      replace (("ALTER TABLE " ^ t_name t ^ " MODIFY COLUMN " ^ c_name c ^ " " ^ to_mysql_column_type c) ^ " " ^
               join " " (column_constraint_list c))
        with ("ALTER TABLE " ^ t_name t ^ " MODIFY COLUMN " ^
              join " " [c_name c; to_mysql_column_type c; join " " (column_constraint_list c)])
        by (cbn [join]; rewrite !app_assoc_s; reflexivity).
      rewrite join_flat by now apply autoinc_nonempty.
      rewrite !app_assoc_s. eapply (modify_says true); eauto.
    + exists [MModify (t_name t) (mkColDef (c_name c) ft [OAutoIncrement; OPrimaryKey])]. split; [now apply so_autoinc_off|].
      apply one_line.
      replace (c_name c ^ " " ^ to_mysql_column_type c ^ " AUTO_INCREMENT PRIMARY KEY;")
        with (join " " [c_name c; to_mysql_column_type c; "AUTO_INCREMENT"; "PRIMARY KEY"] ^ ";")
        by (cbn [join]; rewrite !app_assoc_s; reflexivity).
      eapply (modify_says true); eauto. constructor; [apply opt_autoinc|]. constructor; [apply opt_primary|constructor].
  - exists []. split; [now apply so_silent|apply says_nil].
Qed.

Lemma changes_say : forall suffix chs, Forall (plain_change reserved suffix) chs ->
  exists ls, Forall2 (sql_of suffix) chs ls /\ says (write_lines (flat_map (to_sql suffix) chs)) (Some (concat ls)).
Proof.
  intros suffix chs H. induction H as [|ch chs H HF [ls [IH1 IH2]]].
  - exists []. split; [constructor|apply says_nil].
  - destruct (change_says suffix ch H) as [l [S1 S2]]. exists (l :: ls). split; [now constructor|].
    cbn [flat_map concat]. rewrite lines_app. change (Some (l ++ concat ls)) with (both (Some l) (Some (concat ls))).
    now apply says_app.
Qed.

Lemma script_says : forall suffix css, Forall (plain_change reserved suffix) (all_changes css) ->
  exists ls, Forall2 (sql_of suffix) (all_changes css) ls /\ says (flyway_write suffix css) (Some (concat ls)).
Proof.
  intros suffix css. unfold all_changes. induction css as [|cs css IH]; intros H.
  - exists []. split; [constructor|apply says_nil].
  - cbn [flat_map] in H |- *. apply Forall_app in H. destruct H as [H1 H2]. destruct (IH H2) as [ls2 [A B]].
    destruct (changes_say suffix _ H1) as [ls1 [C D]]. exists (ls1 ++ ls2). split; [now apply Forall2_app|].
    unfold flyway_write. cbn [map]. rewrite concat_nil_cons. rewrite concat_app.
    change (Some (concat ls1 ++ concat ls2)) with (both (Some (concat ls1)) (Some (concat ls2))).
    apply says_app; [|exact B]. replace (Some (concat ls1)) with (both (Some (concat ls1)) (Some [])) by (simpl; now rewrite app_nil_r).
    apply says_app; [exact D|]. apply says_newline.
Qed.

Theorem script_reads : forall suffix css, Forall (plain_change reserved suffix) (all_changes css) ->
  exists ls, Forall2 (sql_of suffix) (all_changes css) ls /\ read_script reserved (flyway_write suffix css) = Some (concat ls).
Proof.
  intros suffix css H. destruct (script_says suffix css H) as [ls [A B]]. exists ls. split; [exact A|now apply says_script].
Qed.

Lemma definition_text : forall c, c_name c ^ " " ^ to_mysql_column_type c ^
  (if negb (String.eqb (column_constraints c) "") then " " ^ column_constraints c else "") = column_definition c.
Proof.
  intros c. unfold column_definition. cbv zeta. destruct (String.eqb (column_constraints c) ""); cbn [negb app join].
  - now rewrite app_nil_r_s.
  - reflexivity.
Qed.

Lemma add_column_invalid : forall suffix t c, plain_ident rs (t_name t) -> plain_column rs c ->
  read_script reserved (write_lines (to_sql suffix (AddColumn t c))) = None.
Proof.
  intros suffix t c Hn Hc. apply says_script. cbn [to_sql]. cbv zeta. apply one_line.
  pose proof (add_column_says (t_name t) c Hn Hc) as S. rewrite <- definition_text in S. rewrite !app_assoc_s in S. exact S.
Qed.

End Reserved.

(** the script's layout *)
Lemma flyway_layout : forall suffix css,
  flyway_write suffix css =
  write_lines (flat_map (fun cs => flat_map (to_sql suffix) (cs_changes cs) ++ [""]) css).
Proof.
  intros suffix css. induction css as [|cs css IH]; [reflexivity|]. unfold flyway_write in *. cbn [map flat_map].
  rewrite concat_nil_cons, IH, lines_app, lines_app. reflexivity.
Qed.
