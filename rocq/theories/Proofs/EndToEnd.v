(** Commands from end to end *)
From Coq Require Import String Ascii List NArith ZArith Bool Sorting.Permutation Sorting.Sorted.
From Verif.Model Require Import GoString Util Octopus Common Json JsonText Mysql Xlsx Liquibase DiffCore Diff DiffWriters Cli.
From Verif.Spec Require Import Text Order OctopusSpec CommonSpec JsonSpec DiffSpec MysqlGrammar MysqlSpec FlywaySpec MarkdownSpec ServerSpec
  CliSpec OptionsSpec GroupSpec EndSpec.
From Verif.Spec Require XlsxSpec Database LiquibaseSpec.
From Verif.Proofs Require Import ListLemmas StringLemmas OctopusProofs JsonTextProofs V1Proofs StabilityProofs MysqlTables FlywayMigration ServerCases
  DiffFacts CliLoad CliImports CliGroups CliWrites SchemaMigration MarkdownProofs XlsxRound.
Import ListNotations.
Local Open Scope string_scope.

(** ** C102 *)
Lemma needed_given : forall w fs c v n, In n (needed c) -> v n = None -> run w fs c v = ([], Failed).
Proof.
  intros w fs c v n I N. unfold run.
  assert (R : required_given c v = false); [|now rewrite R].
  destruct c; cbn [needed] in I;
    repeat (destruct I as [<-|I]; [unfold required_given; cbn; rewrite N; cbn; rewrite ?andb_false_r; reflexivity|]); destruct I.
Qed.
Lemma needed_enough : forall c v, (forall n, In n (needed c) -> v n <> None) -> required_given c v = true.
Proof.
  intros c v H.
  assert (G : forall n, In n (needed c) -> exists x, v n = Some x).
  { intros n I. specialize (H n I). destruct (v n) as [x|]; [eauto|congruence]. }
  clear H. destruct c; cbn [needed In] in G; try reflexivity;
    repeat match type of G with
    | forall n, ?a = n \/ _ -> _ => let E := fresh "E" in destruct (G a (or_introl eq_refl)) as [? E];
        assert (G' := fun n I => G n (or_intror I)); clear G; rename G' into G
    end;
    unfold required_given; cbn;
    repeat match goal with E : v _ = Some _ |- _ => rewrite E; clear E end; reflexivity.
Qed.

(** ** C101 *)
Lemma load_both : forall w fs c v k ws, with_schemas w fs c v k = (ws, Done) ->
  exists a b, load_file w fs (flag_string c v "from") = Loaded a /\ load_file w fs (flag_string c v "to") = Loaded b /\ k a b = (ws, Done).
Proof.
  intros w fs c v k ws H. unfold with_schemas, with_schema, failed, crashed, not_modelled in H.
  destruct (load_file w fs (flag_string c v "from")) as [a| | | |]; [|congruence..].
  destruct (load_file w fs (flag_string c v "to")) as [b| | | |]; [|congruence..]. eauto.
Qed.

Lemma renamed_shape : forall ordT ordC o from to css nw old, get_diff ordT ordC o from to = Some css ->
  iteration_order ordT -> (forall i, iteration_order (ordC i)) -> In (RenameTable old nw) (all_changes css) ->
  In nw (s_tables to) /\ selected (do_filter o) nw /\ ~ In (t_name nw) (map t_name (s_tables from)) /\
  In old (s_tables from) /\ t_cols nw = t_cols old.
Proof.
  intros ordT ordC o from to css nw old H HT HC I.
  destruct (classification _ _ _ _ _ _ H HT HC) as (_ & (news & P & _ & N) & R & _).
  destruct (R old nw I) as [O C].
  assert (A : In nw (map snd news)).
  { eapply Permutation_in; [exact P|]. apply in_flat_map. exists (RenameTable old nw). split; [exact I|]. now left. }
  apply in_map_iff in A as ([i t] & E & A). cbn [snd] in E. subst t. apply N in A as (A & S & M).
  apply nth_error_In in A. auto.
Qed.

Lemma selected_chosen : forall opt t, selected (get_table_filter opt) t <-> chosen opt t.
Proof.
  intros opt t. rewrite <- chosen_iff. unfold selected. destruct (get_table_filter opt); cbn; [reflexivity|].
  split; auto.
Qed.

Lemma flyway_command : forall w fs v ws, real_world w -> run w fs DiffFlyway v = (ws, Done) ->
  exists a b text, load_file w fs (given v "from") = Loaded a /\ load_file w fs (given v "to") = Loaded b /\
    ws = [(given v "output", text)] /\
    forall reserved bs, picked (chosen (given v "groups")) (s_tables b) bs ->
      proper (alter_reserved reserved) (given v "uniqueNameSuffix") (s_tables b) ->
      Forall (fun t => plain_ident (alter_reserved reserved) (t_name t)) (s_tables a) -> NoDup (map t_name (s_tables a)) ->
      (forall t old, In t bs -> In old (s_tables a) -> t_name old = t_name t -> alterable old t) ->
      (forall t old, In t bs -> In old (s_tables a) -> ~ In (t_name t) (map t_name (s_tables a)) -> t_cols t = t_cols old ->
         (forall k, ~ uq_column t k) /\ t_indices t = t_indices old) ->
      migrates reserved (given v "uniqueNameSuffix") text (s_tables a) bs.
Proof.
  intros w fs v ws (_ & _ & HT & HC & _) R. unfold run, action in R. destruct (required_given DiffFlyway v); [|discriminate R].
  unfold diff_flyway in R. apply load_both in R as (a & b & A & B & R). exists a, b.
  match type of R with context [get_diff _ _ ?opt _ _] => set (o := opt) in * end.
  destruct (get_diff (w_ord_tables w) (w_ord_columns w) o a b) as [css|] eqn:D; [|discriminate R].
  change (written (given v "output") (flyway_write (do_suffix o) css) = (ws, Done)) in R.
  exists (flyway_write (do_suffix o) css). split; [exact A|]. split; [exact B|]. split; [unfold written in R; congruence|].
  intros reserved bs P Pr Pl Df Al Rn.
  assert (E : bs = selection (do_filter o) (s_tables b)).
  { rewrite <- selection_select. symmetry. exact (picked_filter _ _ _ P). }
  assert (I : forall t, In t (s_tables b) -> selected (do_filter o) t -> In t bs).
  { intros t T S. apply selected_chosen, chosen_iff in S. rewrite <- (picked_filter _ _ _ P). apply filter_In. auto. }
  rewrite E. apply (script_migrates reserved (w_ord_tables w) (w_ord_columns w) o a b css); auto.
  intros nw old Hr. destruct (renamed_shape _ _ _ _ _ _ _ _ D HT HC Hr) as (Q1 & Q2 & Q3 & Q4 & Q5). apply Rn; auto.
Qed.

Lemma liquibase_command : forall w fs v ws, real_world w -> run w fs DiffLiquibase v = (ws, Done) ->
  exists a b css, load_file w fs (given v "from") = Loaded a /\ load_file w fs (given v "to") = Loaded b /\
    ws = [(given v "output", w_yaml w css)] /\
    forall sv comments bs s, (comments = true <-> switched_on v "comments") ->
      picked (chosen (given v "groups")) (s_tables b) bs ->
      NoDup (map t_name (s_tables a)) -> NoDup (map t_name (s_tables b)) ->
      (forall t, In t (s_tables a) \/ In t (s_tables b) -> Database.well_formed t) ->
      (forall t old, In t bs -> In old (s_tables a) -> t_name old = t_name t ->
         Database.migratable (w_float_ok w) sv (LiquibaseSpec.lq_all css) old t) ->
      (forall t old, In t (s_tables b) -> In old (s_tables a) -> comments = true ->
         In (LqRenameTable (t_name t) (t_name old)) (LiquibaseSpec.lq_all css) -> t_desc t = t_desc old) ->
      Database.is_database (Database.has_table (w_float_ok w) comments "") (s_tables a) s ->
      exists s', Database.run_log sv css s = Some s' /\ Database.is_database (Database.good_table (w_float_ok w) comments) bs s'.
Proof.
  intros w fs v ws (_ & _ & HT & HC & _) R. unfold run, action in R. destruct (required_given DiffLiquibase v); [|discriminate R].
  unfold diff_liquibase in R. apply load_both in R as (a & b & A & B & R).
  match type of R with context [lq_diff _ _ _ ?opt _ _] => set (o := opt) in * end.
  destruct (lq_diff (w_float_ok w) (w_ord_tables w) (w_ord_columns w) o a b) as [css|] eqn:D; [|discriminate R].
  exists a, b, css. split; [exact A|]. split; [exact B|]. split.
  - change (written (given v "output") (w_yaml w css) = (ws, Done)) in R. unfold written in R. congruence.
  - intros sv comments bs s Hc P Na Nb W M Rn S.
    assert (C : comments = lo_comments o).
    { apply Bool.eq_true_iff_eq. rewrite Hc. unfold switched_on, o. cbn [lo_comments]. unfold flag_bool. rewrite str_in_iff. reflexivity. }
    assert (E : bs = Database.select (lo_filter o) (s_tables b)).
    { symmetry. transitivity (filter (passes (lo_filter o)) (s_tables b)); [symmetry; apply selection_select|]. exact (picked_filter _ _ _ P). }
    assert (I : forall t, In t (s_tables b) -> selected (lo_filter o) t -> In t bs).
    { intros t T Q. apply selected_chosen, chosen_iff in Q. rewrite <- (picked_filter _ _ _ P). apply filter_In. auto. }
    rewrite E, C. apply (lq_diff_migrates (w_float_ok w) sv (w_ord_tables w) (w_ord_columns w) o a b css s); auto.
    + rewrite <- C. exact Rn.
    + rewrite <- C. exact S.
Qed.

Lemma md_command : forall w fs v ws, real_world w -> run w fs DiffMd v = (ws, Done) ->
  exists a b comments css names text, load_file w fs (given v "from") = Loaded a /\ load_file w fs (given v "to") = Loaded b /\
    (comments = true <-> switched_on v "comments") /\
    get_diff (w_ord_tables w) (w_ord_columns w)
      (mkDiffOption (get_table_filter (given v "groups")) (given v "author") (given v "uniqueNameSuffix") comments) a b = Some css /\
    ws = [(given v "output", text)] /\ strictly_increasing names /\
    (forall n, In n names <-> exists ch, In ch (all_changes css) /\ t_name (dep_table ch) = n) /\
    text = write_lines (report_head (s_version a) (s_version b) ++ flat_map (report_section md_line (all_changes css)) names)%list.
Proof.
  intros w fs v ws (_ & _ & HT & HC & HK & _) R. unfold run, action in R. destruct (required_given DiffMd v); [|discriminate R].
  unfold diff_md in R. apply load_both in R as (a & b & A & B & R).
  match type of R with context [get_diff _ _ ?opt _ _] => set (o := opt) in * end.
  destruct (get_diff (w_ord_tables w) (w_ord_columns w) o a b) as [css|] eqn:D; [|discriminate R].
  destruct (report (w_ord_keys w) a b css HK) as (names & S & N & _ & E).
  exists a, b, (flag_bool DiffMd v "comments"), css, names, (md_write (w_ord_keys w) a b css).
  split; [exact A|]. split; [exact B|]. split; [unfold switched_on, flag_bool; rewrite str_in_iff; reflexivity|].
  split; [exact D|]. split.
  - change (written (given v "output") (md_write (w_ord_keys w) a b css) = (ws, Done)) in R. unfold written in R. congruence.
  - split; [exact S|]. split; [exact N|]. unfold md_write. now rewrite E.
Qed.

(** ** Valid schemas are saved and loaded *)
Lemma valid_saved : forall w s, sorts_tables (w_sort w) -> valid_schema s -> fits_u16 s -> schema_utf8 s ->
  exists text, to_text (w_sort w) s = Some text /\
    forall fs name, octopus_name name -> fs name = Some text ->
    exists s', load_file w fs name = Loaded s' /\ in_order s s' /\ valid_schema s'.
Proof.
  intros w s Hs V Fit U. destruct (valid_normalize _ _ Hs V) as (s1 & N1 & P1 & A1 & B1 & C1 & V1).
  assert (T : exists text, to_text (w_sort w) s = Some text) by (unfold to_text, to_json; rewrite N1; eexists; reflexivity).
  destruct T as [text T].
  exists text. split; [exact T|]. intros fs name O F.
  destruct (text_roundtrip _ _ _ Hs Fit T) as (s2 & N2 & R & Fit2).
  assert (s2 = s1) by congruence. subst s2.
  rewrite clean_schema_utf8 in R by exact (normalized_utf8 _ _ _ Hs N1 U).
  destruct (valid_normalize _ _ Hs V1) as (s3 & N3 & P3 & A3 & B3 & C3 & V3).
  exists s3. split.
  - rewrite (load_encoded w fs name text s1 (accepts_octopus _ O) F R Fit2). unfold load_schema_decoded. now rewrite N3.
  - split; [|exact V3]. split; [now transitivity (s_tables s1)|].
    split; [exact (proj1 (proj2 (normalize_repaired _ _ _ Hs N3)))|]. repeat split; congruence.
Qed.

(** ** C103 *)
Lemma listed_iff : forall opt n, str_in n (split_char "," opt) = true <-> listed opt n.
Proof.
  intros opt n. rewrite str_in_iff. split.
  - intros I. exists (split_char "," opt). split; [intros p; apply split_char_clean|].
    split; [symmetry; apply split_char_join|exact I].
  - intros (parts & C & -> & I). rewrite split_char_of_join; [exact I|intros ->; destruct I|exact C].
Qed.
Lemma picked_is_filter : forall (P : table -> Prop) p, (forall t, p t = true <-> P t) -> forall ts ts', picked P ts ts' -> filter p ts = ts'.
Proof.
  intros P p H ts ts' Q. induction Q as [|t l l' C Q IH|t l l' C Q IH]; cbn [filter]; [reflexivity| |].
  - apply H in C. now rewrite C, IH.
  - destruct (p t) eqn:E; [apply H in E; contradiction|exact IH].
Qed.
Lemma picked_incl : forall {A} (P : A -> Prop) l l', picked P l l' -> forall x, In x l' -> In x l.
Proof.
  intros A P l l' Q. induction Q as [|t l l' C Q IH|t l l' C Q IH]; intros x; [intros []| |].
  - intros [->|I]; [now left|right; auto].
  - intros I. right. auto.
Qed.

Lemma cores_valid : forall a n ver s ts, valid_schema s -> (forall t, In t ts -> In t (s_tables s)) ->
  valid_schema (mkSchema a n ver (map table_core ts)).
Proof.
  intros a n ver s ts V I c C. unfold columns_of in C. cbn [s_tables] in C. apply in_flat_map in C as (t & T & C).
  apply in_map_iff in T as (t0 & <- & T). cbn [table_core t_cols] in C. apply in_map_iff in C as (c0 & <- & C).
  assert (W : valid_column c0) by (apply V; unfold columns_of; apply in_flat_map; eauto). destruct c0. exact W.
Qed.
Lemma core_strings : forall t x, In x (table_strings (table_core t)) -> x = "" \/ In x (table_strings t).
Proof.
  intros t x. unfold table_strings. cbn [table_core t_name t_desc t_group t_class t_cols t_indices].
  rewrite !in_app_iff. cbn [In]. intros [[H|[H|[H|[H|[]]]]]|[H|H]]; auto 8.
  right. right. left. apply in_flat_map in H as (c & C & H). apply in_map_iff in C as (c0 & <- & C).
  apply in_flat_map. exists c0. split; [exact C|]. unfold column_strings in *.
  cbn [without_ref c_name c_type c_desc c_default c_onupdate c_values c_ref ref_strings] in H. rewrite !in_app_iff in *. cbn [In] in *. tauto.
Qed.
Lemma cores_utf8 : forall a ver s ts, utf8 a -> utf8 ver -> schema_utf8 s -> (forall t, In t ts -> In t (s_tables s)) ->
  schema_utf8 (mkSchema a "" ver (map table_core ts)).
Proof.
  intros a ver s ts A B U I x X. unfold schema_strings in X. cbn [s_author s_name s_version s_tables] in X.
  apply in_app_iff in X as [[<-|[<-|[<-|[]]]]|X]; auto; [constructor|].
  apply in_flat_map in X as (t & T & X). apply in_map_iff in T as (t0 & <- & T).
  apply core_strings in X as [->|X]; [constructor|]. apply U. unfold schema_strings. apply in_app_iff. right.
  apply in_flat_map. eauto.
Qed.

Lemma mysql_command : forall w fs v s, load_file w fs (given v "input") = Loaded s -> v "input" <> None -> v "output" <> None ->
  run w fs ExportMysql v =
  ([(given v "output", my_export (get_table_filter (given v "groups")) (given v "uniqueNameSuffix") s)], Done).
Proof.
  intros w fs v s L I O. unfold run. rewrite needed_enough by (intros n [<-|[<-|[]]]; assumption).
  unfold action, export_mysql_file, with_schema. change (flag_string ExportMysql v "input") with (given v "input"). now rewrite L.
Qed.

Lemma mysql_files : forall w reserved fs v s ts,
  sorts_tables (w_sort w) -> reads_sql w reserved ->
  load_file w fs (given v "input") = Loaded s -> valid_schema s ->
  v "input" <> None -> v "output" <> None ->
  picked (chosen (given v "groups")) (s_tables s) ts ->
  Forall (plain_table reserved (given v "uniqueNameSuffix")) ts ->
  Forall (fun t => NoDup (map c_name (t_cols t)) /\ Forall survives (t_cols t)) ts ->
  exists text, run w fs ExportMysql v = ([(given v "output", text)], Done) /\
  forall fs' v' ts', fs' (given v' "input") = Some text -> v' "input" <> None -> v' "output" <> None ->
  octopus_name (given v' "output") -> utf8 (given v' "author") -> utf8 (given v' "version") ->
  picked (fun t => ~ listed (given v' "excludes") (t_name t)) ts ts' ->
  exists text', run w fs' ImportMysql v' = ([(given v' "output", text')], Done) /\
  forall fs'', fs'' (given v' "output") = Some text' ->
  exists s', load_file w fs'' (given v' "output") = Loaded s' /\ valid_schema s' /\
    in_order (mkSchema (given v' "author") "" (given v' "version") (map table_core ts')) s'.
Proof.
  intros w reserved fs v s ts Hs Sq L V I O P Pl Sv.
  exists (my_export (get_table_filter (given v "groups")) (given v "uniqueNameSuffix") s).
  split; [now apply mysql_command|]. intros fs' v' ts' F I' O' On Ua Uv Q.
  assert (E := picked_filter _ _ _ P). rewrite <- E in Pl, Sv.
  destruct (export_import reserved _ _ s (split_char "," (given v' "excludes")) (given v' "author") (given v' "version") Pl Sv)
    as (stmts & Rd & Im).
  rewrite E in Im.
  assert (Q' : filter (fun t => negb (str_in (t_name t) (split_char "," (given v' "excludes")))) ts = ts').
  { revert Q. apply picked_is_filter. intros t. rewrite <- listed_iff. rewrite negb_true_iff.
    destruct (str_in _ _); intuition discriminate. }
  rewrite Q' in Im. set (S := mkSchema (given v' "author") "" (given v' "version") (map table_core ts')) in *.
  assert (T : forall t, In t ts' -> In t (s_tables s)) by (intros t T; exact (picked_incl _ _ _ P t (picked_incl _ _ _ Q t T))).
  destruct (valid_saved w S Hs) as (text' & T' & Ld).
  - exact (cores_valid _ _ _ s ts' V T).
  - rewrite (import_sql_ok _ _ _ _ _ Im). apply mysql_fits.
  - apply (cores_utf8 _ _ s); auto. exact (load_utf8 _ _ _ _ Hs L).
  - exists text'. split.
    + unfold run. rewrite needed_enough by (intros n [<-|[<-|[]]]; assumption).
      unfold action, import_mysql. change (flag_string ImportMysql v' "input") with (given v' "input").
      change (flag_string ImportMysql v' "excludes") with (given v' "excludes").
      change (flag_string ImportMysql v' "author") with (given v' "author").
      change (flag_string ImportMysql v' "version") with (given v' "version").
      change (flag_string ImportMysql v' "output") with (given v' "output").
      rewrite F, (Sq _ _ Rd), Im. unfold with_res, save_schema. now rewrite T'.
    + intros fs'' F''. destruct (Ld fs'' _ On F'') as (s' & L' & R). exists s'. tauto.
Qed.

Lemma mysql_server : forall w reserved fs v s ts,
  load_file w fs (given v "input") = Loaded s -> v "input" <> None -> v "output" <> None ->
  picked (chosen (given v "groups")) (s_tables s) ts -> proper reserved (given v "uniqueNameSuffix") ts ->
  exists text, run w fs ExportMysql v = ([(given v "output", text)], Done) /\
    creates reserved (given v "uniqueNameSuffix") text ts.
Proof.
  intros w reserved fs v s ts L I O P (Pl & N & A).
  exists (my_export (get_table_filter (given v "groups")) (given v "uniqueNameSuffix") s).
  split; [now apply mysql_command|]. assert (E := picked_filter _ _ _ P). rewrite selection_select in E. rewrite <- E in *.
  destruct (ddl_creates reserved (get_table_filter (given v "groups")) (given v "uniqueNameSuffix") s [] Pl N) as (stmts & bs & R & Q & F); auto.
  exists stmts, bs. split; [exact R|]. split; [exact Q|]. exists bs. auto.
Qed.

(** ** C104 *)
Lemma permutation_by_key : forall {A} (k : A -> string) l l',
  (forall n, filter (fun a => String.eqb (k a) n) l = filter (fun a => String.eqb (k a) n) l') -> Permutation l l'.
Proof.
  intros A k l. induction l as [|a l IH]; intros l' H.
  - destruct l' as [|b l']; [constructor|]. specialize (H (k b)). cbn [filter] in H. rewrite String.eqb_refl in H. discriminate.
  - assert (Ha := H (k a)). cbn [filter] in Ha. rewrite String.eqb_refl in Ha.
    assert (X : exists l1 l2, l' = (l1 ++ a :: l2)%list /\ Forall (fun b => k b <> k a) l1).
    { clear IH H. induction l' as [|b l' IH]; [discriminate|]. cbn [filter] in Ha. destruct (String.eqb_spec (k b) (k a)) as [E|N].
      - exists [], l'. split; [|constructor]. cbn [List.app]. f_equal. congruence.
      - destruct (IH Ha) as (l1 & l2 & -> & F). exists (b :: l1), l2. split; [reflexivity|]. now constructor. }
    destruct X as (l1 & l2 & -> & F1). apply Permutation_cons_app. apply IH. intros n.
    specialize (H n). rewrite filter_app in *. cbn [filter] in H. destruct (String.eqb_spec (k a) n) as [E|N]; [subst n|exact H].
    assert (Z : filter (fun b => String.eqb (k b) (k a)) l1 = []).
    { clear -F1. induction F1 as [|b l1 N F IH]; cbn [filter]; [reflexivity|]. apply String.eqb_neq in N. now rewrite N. }
    rewrite Z in *. cbn [List.app] in *. congruence.
Qed.

Definition on_sheet (t : table) : table := XlsxSpec.in_group (XlsxSpec.documented_sheet (t_group t)) t.
Lemma sheets_of : forall n ts,
  filter (fun t => String.eqb (t_group t) n) (map on_sheet ts) =
  map (XlsxSpec.in_group n) (filter (fun t => String.eqb (XlsxSpec.documented_sheet (t_group t)) n) ts).
Proof.
  intros n ts. induction ts as [|t ts IH]; [reflexivity|]. cbn [map filter].
  change (t_group (on_sheet t)) with (XlsxSpec.documented_sheet (t_group t)).
  destruct (String.eqb_spec (XlsxSpec.documented_sheet (t_group t)) n) as [<-|N]; [|exact IH]. cbn [map]. rewrite IH. reflexivity.
Qed.

Lemma xlsx_files : forall w fs v s,
  real_world w -> keeps_workbooks w ->
  load_file w fs (given v "input") = Loaded s -> valid_schema s ->
  v "input" <> None -> v "output" <> None ->
  XlsxSpec.sheets_possible (w_sheet_ok w) s -> Forall XlsxSpec.plain_table (s_tables s) ->
  exists text, run w fs ExportXlsx v = ([(given v "output", text)], Done) /\
  forall fs' v', fs' (given v' "input") = Some text -> v' "input" <> None -> v' "output" <> None ->
  octopus_name (given v' "output") ->
  exists text', run w fs' ImportXlsx v' = ([(given v' "output", text')], Done) /\
  forall fs'', fs'' (given v' "output") = Some text' ->
  exists s', load_file w fs'' (given v' "output") = Loaded s' /\ valid_schema s' /\
    in_order (mkSchema (s_author s) (s_name s) (s_version s)
                (map (fun t => XlsxSpec.in_group (XlsxSpec.documented_sheet (t_group t)) t) (s_tables s))) s'.
Proof.
  intros w fs v s (Hs & _ & _ & _ & HK & _) Kw L V I O Sp Pl.
  destruct (roundtrip (w_sheet_ok w) (flag_bool ExportXlsx v "useNullColumn") (w_ord_keys w) s HK Sp Pl) as (wb & X & B).
  exists (w_save_xlsx w wb). split.
  - unfold run. rewrite needed_enough by (intros n [<-|[<-|[]]]; assumption).
    unfold action, export_xlsx_file, with_schema. change (flag_string ExportXlsx v "input") with (given v "input"). now rewrite L, X.
  - intros fs' v' F I' O' On. destruct (Kw wb) as (wb' & Op & Rd). destruct (B wb' Rd) as (s1 & Im & A1 & A2 & A3 & G).
    change (map (fun t => XlsxSpec.in_group (XlsxSpec.documented_sheet (t_group t)) t) (s_tables s)) with (map on_sheet (s_tables s)).
    set (S := mkSchema (s_author s) (s_name s) (s_version s) (map on_sheet (s_tables s))).
    assert (P : Permutation (s_tables s1) (s_tables S)).
    { apply (permutation_by_key t_group). intros n. rewrite G. symmetry. apply sheets_of. }
    assert (VS : valid_schema S).
    { intros c C. unfold columns_of in C. cbn [S s_tables] in C. apply in_flat_map in C as (t & T & C).
      apply in_map_iff in T as (t0 & <- & T). apply V. unfold columns_of. apply in_flat_map. exists t0. auto. }
    assert (U := load_utf8 _ _ _ _ Hs L).
    assert (US : schema_utf8 S).
    { intros x Q. unfold schema_strings in *. cbn [S s_author s_name s_version s_tables] in Q.
      apply in_app_iff in Q as [Q|Q]; [apply U; unfold schema_strings; apply in_app_iff; now left|].
      apply in_flat_map in Q as (t & T & Q). apply in_map_iff in T as (t0 & <- & T).
      assert (H : x = "Common" \/ In x (table_strings t0)).
      { unfold table_strings in *. cbn [on_sheet XlsxSpec.in_group t_name t_desc t_group t_class t_cols t_indices] in Q.
        rewrite !in_app_iff in *. cbn [In] in *. destruct Q as [[Q|[Q|[Q|[Q|[]]]]]|[Q|Q]]; auto 10.
        destruct (t_group t0) eqn:E; cbn [XlsxSpec.documented_sheet] in Q; auto 10. }
      destruct H as [->|H].
      - repeat (match goal with |- utf8 (String ?a ?r) => change (String a r) with (String a "" ++ r); constructor; [constructor; unfold byte; cbn; split; discriminate|] end). constructor.
      - apply U. unfold schema_strings. apply in_app_iff. right. apply in_flat_map. eauto. }
    assert (V1 : valid_schema s1).
    { intros c C. apply VS. unfold columns_of in *. apply in_flat_map in C as (t & T & C). apply in_flat_map.
      exists t. split; [eapply Permutation_in; eauto|exact C]. }
    assert (U1 : schema_utf8 s1).
    { intros x Q. apply US. unfold schema_strings in *. rewrite A1, A2, A3 in Q. apply in_app_iff in Q as [Q|Q]; apply in_app_iff; [now left|right].
      apply in_flat_map in Q as (t & T & Q). apply in_flat_map. exists t. split; [eapply Permutation_in; eauto|exact Q]. }
    destruct (valid_saved w s1 Hs V1 (xlsx_fits _ _ _ Im) U1) as (text' & T' & Ld).
    exists text'. split.
    + unfold run. rewrite needed_enough by (intros n [<-|[<-|[]]]; assumption).
      unfold action, import_xlsx_file. change (flag_string ImportXlsx v' "input") with (given v' "input").
      change (flag_string ImportXlsx v' "output") with (given v' "output").
      rewrite F, Op, Im. unfold save_schema. now rewrite T'.
    + intros fs'' F''. destruct (Ld fs'' _ On F'') as (s' & L' & (Q1 & Q2 & Q3 & Q4 & Q5) & V'). exists s'. split; [exact L'|].
      split; [exact V'|]. split; [now transitivity (s_tables s1)|]. split; [exact Q2|].
      cbn [S s_author s_name s_version]. repeat split; congruence.
Qed.
